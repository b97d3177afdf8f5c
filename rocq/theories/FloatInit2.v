(* Fixed and general notation with a precision. *)
From Verif Require Import Base GroupSpec DigitsSpec IntSpec DestModel DestProofs GroupModel GroupProofs GroupDist
  DigitsModel DigitsProofs DigitsCount IntModel IntProofs CharsetModel FloatSpec FloatModel FloatArith FloatText FloatNum FloatInit.

Lemma int_part_len m e : decimal_ok m e -> Z.of_nat (length (digits 10 (int_part m e))) = Z.max 1 (zlen (digits 10 m) + e).
Proof.
  intros (Hm & He & Hz). set (n := mk_num FormFixed m e (zlen (digits 10 m)) 0 0 true 0).
  assert (W : num_wf n). { unfold n. constructor; cbn [n_m n_digcount n_extra n_e n_form n_point]; try lia; auto. }
  pose proof (int_len_ok n W) as E. unfold int_len in E. rewrite fixed_div in E by (unfold n; cbn; lia). exact E.
Qed.

Lemma stripped_mul p k m : 0 <= m -> stripped (k + p) (m * 10 ^ Z.of_nat k) = stripped p m.
Proof.
  intros Hm. induction k as [|k IH]; [rewrite Z.mul_1_r; reflexivity|]. cbn [stripped plus].
  rewrite Nat2Z.inj_succ, Z.pow_succ_r by lia. replace (m * (10 * 10 ^ Z.of_nat k)) with (m * 10 ^ Z.of_nat k * 10) by lia.
  rewrite Z.mod_mul, Z.div_mul by lia. exact IH.
Qed.
Lemma stripped_mulz p k m : 0 <= m -> 0 <= p -> 0 <= k -> stripped (Z.to_nat (k + p)) (m * 10 ^ k) = stripped (Z.to_nat p) m.
Proof. intros. rewrite Z2Nat.inj_add by lia. rewrite <- (Z2Nat.id k) at 2 by lia. apply stripped_mul; assumption. Qed.
Lemma stripped_stop p m : m mod 10 <> 0 \/ p = O -> stripped p m = (m, Z.of_nat p).
Proof. intros H. destruct p as [|p]; [reflexivity|]. cbn [stripped]. destruct (Z.eqb_spec (m mod 10) 0); [lia|reflexivity]. Qed.
Lemma stripped_spec p : forall N N' p', 0 <= N -> stripped p N = (N', p') ->
  0 <= p' <= Z.of_nat p /\ N = N' * 10 ^ (Z.of_nat p - p') /\ 0 <= N'.
Proof.
  induction p as [|p IH]; intros N N' p' HN E; cbn [stripped] in E.
  - inversion E; subst. split; [lia|]. split; [cbn; lia|lia].
  - destruct (Z.eqb_spec (N mod 10) 0).
    + destruct (IH (N / 10) N' p' ltac:(apply Z.div_pos; lia) E) as (A & C & D). split; [lia|]. split; [|exact D].
      rewrite Nat2Z.inj_succ. replace (Z.succ (Z.of_nat p) - p') with (1 + (Z.of_nat p - p')) by lia. rewrite pow10_split by lia.
      change (10 ^ 1) with 10. pose proof (Z.div_mod N 10). lia.
    + inversion E; subst. split; [lia|]. rewrite Z.sub_diag. split; [cbn; lia|lia].
Qed.

Lemma five_eq (a b c d a' b' c' d' : Z) (x x' : bool) : a = a' -> b = b' -> c = c' -> d = d' -> x = x' ->
  Some (a, b, c, d, x) = Some (a', b', c', d', x').
Proof. intros; subst; reflexivity. Qed.
Lemma strip_loop_ok : forall fuel k m d sub e int N p, k = Z.to_nat (d - int) -> int <= d -> (k < fuel)%nat -> 0 <= m ->
  stripped k m = (N, p) ->
  strip_loop fuel m d sub e int = Some (N, int + p, sub - (d - int - p), e + (d - int - p), 0 <? p).
Proof.
  induction fuel as [|fuel IH]; intros k m d sub e int N p Ek Hd Hf Hm E; [lia|]. cbn [strip_loop].
  destruct (Z.leb_spec d int).
  - destruct k as [|k]; [|lia]. cbn [stripped] in E. apply pair_equal_spec in E as [<- <-]. apply five_eq; try reflexivity; lia.
  - destruct k as [|k]; [lia|]. cbn [stripped] in E. destruct (Z.eqb_spec (m mod 10) 0); cbn [negb].
    + rewrite (IH k (m / 10) (d - 1) (sub - 1) (e + 1) int N p) by (first [lia | assumption | apply Z.div_pos; lia]).
      apply five_eq; try reflexivity; lia.
    + apply pair_equal_spec in E as [<- <-]. apply five_eq; lia.
Qed.

Section Init2.
Variables (g : Z) (gs : list Z) (rep : bool) (showsign : bool) (m e : Z) (sp : bool) (one_unit : Prop).
Hypothesis Hr : represents g gs rep.
Hypothesis Hd : decimal_ok m e.
Let B := boundary gs rep.
Let dc := zlen (digits 10 m).

Ltac wf_tac := constructor; cbn [n_m n_digcount n_extra n_e n_form n_point]; try reflexivity; try lia; auto.
Ltac nproj := cbn [n_form n_m n_digcount n_extra n_e n_point n_sub n_seps].

(* rounding does not change the number of separators *)
Definition same_separators (prec : Z) : Prop :=
  boundaries_below B (length (digits 10 (rounded m e prec / 10 ^ prec))) = boundaries_below B (length (digits 10 (int_part m e))).

Lemma prec_fixed_ok prec : 0 <= prec -> same_separators prec -> exists n, prec_fixed g showsign m e prec sp = Some n /\
  num_good B one_unit showsign n /\ n_form n = FormFixed /\
  forall s, st_boundary s = B -> st_showpoint s = sp -> st_notation s = NFixed -> st_precision s = Some prec ->
    forall lc, num_text B (st_sep s) (st_point s) lc n = decimal_body s m e.
Proof using Hd Hr.
  intros Hp HS. destruct (dc_facts m e Hd) as (Hm & D1 & D2 & D3 & D4 & D5 & D6 & He). fold dc in D1, D2, D3, D4, D5.
  unfold prec_fixed. rewrite D4. cbv zeta. set (point := sp || negb (prec =? 0)).
  assert (Hpt : (point || (0 <? prec)) = (sp || (0 <? prec))).
  { unfold point. destruct sp; [reflexivity|]. cbn [orb]. destruct (Z.eqb_spec prec 0), (Z.ltb_spec 0 prec); cbn; lia || reflexivity. }
  assert (Hpt2 : 0 < prec -> point = true) by (intros; unfold point; replace (prec =? 0) with false by lia; apply orb_true_r).
  set (fd := if e <? 0 then - e else 0).
  assert (Efd : fd = Z.max 0 (- e)) by (unfold fd; destruct (Z.ltb_spec e 0); lia).
  (* it suffices to give the digits *)
  assert (Hgoal : forall n, num_wf n -> n_form n = FormFixed -> fixed_places n = prec -> fixed_scaled n = rounded m e prec -> n_point n = point ->
     n_seps n = boundaries_below B (int_len n) -> n_sub n = b2z showsign + b2z point + n_seps n + (Z.max 1 (n_digcount n + n_e n) + prec) ->
     num_good B one_unit showsign n /\ n_form n = FormFixed /\
     forall s, st_boundary s = B -> st_showpoint s = sp -> st_notation s = NFixed -> st_precision s = Some prec ->
     forall lc, num_text B (st_sep s) (st_point s) lc n = decimal_body s m e).
  { intros n W Ef Epl Esc Ept Ese Esu. split; [|split; [exact Ef|]].
    - constructor; [exact W|intros _; exact Ese|congruence|]. rewrite num_text_len by exact W. rewrite Ef, <- Ese, Esu, Ept.
      unfold fixed_places in Epl. change (zlen [46]) with 1. change (zlen [44]) with 1. destruct point; cbn [b2z]; lia.
    - intros s EB Es En Ep lc. unfold num_text, decimal_body. rewrite Ef, En, Ep, Epl, Esc, Ept, EB, Es. apply fixed_text_eq. exact Hpt. }
  assert (Hbelow : forall n, num_wf n -> n_digcount n + n_e n = Z.max 1 (n_digcount n + n_e n) \/ True ->
     boundaries_below B (Z.to_nat (Z.max 1 (n_digcount n + n_e n))) = boundaries_below B (int_len n)).
  { intros n W _. f_equal. pose proof (int_len_ok n W). lia. }
  destruct (Z.leb_spec (prec - fd) (- dc)) as [Hx|Hx].
  - assert (He0 : e < 0) by lia. replace (- (prec + dc) <? e) with false by lia. rewrite pow10_some by lia. cbn [obind].
    assert (E10 : 10 ^ dc = 2 * (5 * 10 ^ (dc - 1))).
    { replace dc with (1 + (dc - 1)) at 1 by lia. rewrite pow10_split by lia. change (10 ^ 1) with 10. lia. }
    assert (Esh : Z.shiftr (10 ^ dc) 1 = 5 * 10 ^ (dc - 1)) by (rewrite shr_div by lia; change (2 ^ 1) with 2; lia).
    rewrite Esh. set (h := 5 * 10 ^ (dc - 1)) in *.
    assert (Hround : rounded m e prec = if (prec - fd =? - dc) && (h <? m) then 1 else 0).
    { unfold rounded. replace (0 <=? e + prec) with false by lia. destruct (Z.eqb_spec (prec - fd) (- dc)) as [Eq|Eq]; cbn [andb].
      - replace (- (e + prec)) with dc by lia. destruct (Z.ltb_spec h m).
        + symmetry. apply nearest_unique; [lia| |]; rewrite Z.mul_1_r; rewrite Z.abs_neq by lia; lia.
        + apply nearest_small; lia.
      - assert (10 ^ (dc + 1) <= 10 ^ (- (e + prec))) by (apply Z.pow_le_mono_r; lia).
        rewrite pow10_split in H by lia. change (10 ^ 1) with 10 in H. apply nearest_small; lia. }
    destruct ((prec - fd =? - dc) && (h <? m)) eqn:Eup.
    + apply andb_prop in Eup as [Eup _]. eexists; split; [reflexivity|]. apply Hgoal; nproj; try reflexivity.
      * wf_tac. intros; apply Hpt2; lia.
      * unfold fixed_places; nproj. lia.
      * unfold fixed_scaled, fixed_places; nproj. rewrite Hround. replace (e + dc + (Z.max 0 (- (e + dc)) + 0)) with 0 by lia. reflexivity.
      * symmetry. match goal with |- boundaries_below B (int_len ?n) = 0 => assert (W : num_wf n) by (wf_tac; intros; apply Hpt2; lia); pose proof (int_len_ok n W) as E end.
        revert E; nproj. intros E. set (k := int_len _) in *. replace k with 1%nat by lia. reflexivity.
      * lia.
    + eexists; split; [reflexivity|]. apply Hgoal; nproj; try reflexivity.
      * wf_tac. intros; apply Hpt2; lia.
      * unfold fixed_scaled; nproj. rewrite Hround. reflexivity.
      * lia.
  - set (ic := if - e <? dc then dc + e else 1).
    assert (Eic : ic = Z.max 1 (dc + e)) by (unfold ic; destruct (Z.ltb_spec (- e) dc); lia).
    rewrite Eic, (seps_ok g gs rep) by exact Hr. cbn [obind]. fold B. replace (Z.max 1 (Z.max 1 (dc + e))) with (Z.max 1 (dc + e)) by lia.
    set (sc := boundaries_below B (Z.to_nat (Z.max 1 (dc + e)))) in *.
    destruct (Z.leb_spec 0 (prec - fd)) as [Hx0|Hx0].
    + eexists; split; [reflexivity|]. apply Hgoal; nproj; try reflexivity.
      * wf_tac. intros; apply Hpt2; lia.
      * unfold fixed_places; nproj. lia.
      * unfold fixed_scaled, fixed_places, rounded; nproj. replace (0 <=? e + prec) with true by lia. f_equal. f_equal. lia.
      * match goal with |- sc = boundaries_below B (int_len ?n) => assert (W : num_wf n) by (wf_tac; intros; apply Hpt2; lia);
          pose proof (Hbelow n W ltac:(right; exact I)) as E end. exact E.
    + assert (He0 : e < 0) by lia. assert (Ef : fd = - e) by lia. rewrite Ef in *. clear Efd Ef.
      replace (- (prec - - e)) with (- (prec + e)) by lia. set (k := - (prec + e)).
      assert (Hk : 1 <= k < dc) by lia. rewrite drop_digits_ok by lia. cbn [obind].
      replace (dc + (prec - - e)) with (dc - k) by lia. rewrite pow10_some by lia. cbn [obind].
      replace (e - (prec - - e)) with (- prec) by lia.
      assert (Hround : rounded m e prec = nearest m (10 ^ k)).
      { unfold rounded. replace (0 <=? e + prec) with false by lia. replace (- (e + prec)) with k by lia. reflexivity. }
      destruct (Z.eqb_spec (nearest m (10 ^ k)) (10 ^ (dc - k))) as [Ec|Ec].
      * replace (- prec + (dc - k)) with (dc + e) by lia.
        destruct (Z.leb_spec (dc + e) 0) as [H0|H0].
        -- replace (prec <? - (dc + e)) with false by lia. eexists; split; [reflexivity|]. apply Hgoal; nproj; try reflexivity.
           ++ wf_tac. intros; apply Hpt2; lia.
           ++ unfold fixed_places; nproj. lia.
           ++ unfold fixed_scaled, fixed_places; nproj. rewrite Hround, Ec. rewrite Z.mul_1_l. f_equal. lia.
           ++ match goal with |- sc = boundaries_below B (int_len ?n) => assert (W : num_wf n) by (wf_tac; intros; apply Hpt2; lia);
                pose proof (Hbelow n W ltac:(right; exact I)) as E end. rewrite <- E. nproj. unfold sc. do 2 f_equal. lia.
           ++ lia.
        -- eexists; split; [reflexivity|]. set (n := mk_num _ _ _ _ _ _ _ _).
           assert (W : num_wf n) by (unfold n; wf_tac; intros; apply Hpt2; lia).
           assert (Esc : fixed_scaled n = rounded m e prec).
           { unfold fixed_scaled, fixed_places, n; nproj. rewrite Hround, Ec. rewrite Z.mul_1_l. f_equal. lia. }
           assert (Epl : fixed_places n = prec) by (unfold fixed_places, n; nproj; lia).
           apply Hgoal; try assumption; try reflexivity.
           ++ unfold n at 1; nproj. unfold int_len. rewrite Esc, Epl. unfold same_separators in HS. rewrite HS. unfold sc. f_equal.
              pose proof (int_part_len m e Hd) as EI. fold dc in EI. lia.
           ++ unfold n; nproj. lia.
      * destruct (nearest_dc m e Hd k Hk Ec) as [N1 N2]. fold dc in N1.
        eexists; split; [reflexivity|]. apply Hgoal; nproj; try reflexivity.
        -- wf_tac. intros; apply Hpt2; lia.
        -- unfold fixed_places; nproj. lia.
        -- unfold fixed_scaled, fixed_places; nproj. rewrite Hround. replace (- prec + (Z.max 0 (- - prec) + 0)) with 0 by lia. lia.
        -- match goal with |- sc = boundaries_below B (int_len ?n) => assert (W : num_wf n) by (wf_tac; intros; apply Hpt2; lia);
             pose proof (Hbelow n W ltac:(right; exact I)) as E end. rewrite <- E. nproj. unfold sc. do 2 f_equal. lia.
        -- lia.
Qed.

(* ---- general notation ---- *)
(* text from scaled digits *)
Lemma fixed_num_text n s N p lc b : fixed_scaled n = N -> fixed_places n = p -> n_form n = FormFixed -> st_boundary s = B ->
  (n_point n || (0 <? p)) = (b || (0 <? p)) ->
  num_text B (st_sep s) (st_point s) lc n = fixed_text (st_boundary s) (st_sep s) (st_point s) b N p.
Proof using. intros <- <- Ef EB Ep. unfold num_text. rewrite Ef, EB. apply fixed_text_eq. exact Ep. Qed.
Lemma sci_num_text n s N p E sep b : n_m n * 10 ^ n_extra n = N -> n_digcount n - 1 + n_extra n = p -> n_e n + n_digcount n - 1 = E -> n_form n = FormSci ->
  (n_point n || (0 <? p)) = (b || (0 <? p)) ->
  num_text B sep (st_point s) (st_case s) n = sci_text (st_case s) (st_point s) b N p E.
Proof using. intros <- <- <- Ef Ep. unfold num_text. rewrite Ef. apply sci_text_eq. exact Ep. Qed.

Lemma point_eq (sp0 : bool) p : (sp0 || (0 <? p) || (0 <? p)) = (sp0 || (0 <? p)).
Proof using. destruct sp0, (0 <? p); reflexivity. Qed.
Lemma general_unfold s prec N E : st_notation s = NGeneral -> st_precision s = Some prec -> 0 <= prec ->
  let P := Z.max 1 prec in
  sci_rounded m e (P - 1) = (N, E) ->
  decimal_body s m e =
  let fixed := (-4 <=? E) && (E <? P) in
  let p := if fixed then P - 1 - E else P - 1 in
  let '(N', p') := if st_showpoint s then (N, p) else stripped (Z.to_nat p) N in
  if fixed then fixed_text (st_boundary s) (st_sep s) (st_point s) (st_showpoint s) N' p'
  else sci_text (st_case s) (st_point s) (st_showpoint s) N' p' E.
Proof using.
  intros En Ep Hp P ES. unfold decimal_body. rewrite En, Ep. unfold general_text, general_is_fixed, general_digits. fold P. rewrite ES. reflexivity.
Qed.

(* the known deviations: see Properties_Float *)
Definition prec_carries (prec : Z) : bool := (Z.max 1 prec <? dc) && sci_carries m (Z.max 1 prec - 1).
Definition general_fixed (prec : Z) : bool := general_is_fixed m e prec.
Record general_fine (prec : Z) : Prop := mk_general_fine {
  gf_sign : prec_carries prec = true -> general_fixed prec = true -> showsign = false;
  gf_seps : prec_carries prec = true -> general_fixed prec = false ->
            boundaries_below B (length (digits 10 (int_part m e))) = 0 \/ e + dc > Z.max 1 prec \/ one_unit;
  gf_point : sp = true -> prec_carries prec = false -> Z.max 1 prec < dc ->
             let '(N, E) := sci_rounded m e (Z.max 1 prec - 1) in
             N mod 10 <> 0 \/ (if general_fixed prec then Z.max 1 prec - 1 - E else Z.max 1 prec - 1) = 0 }.

Lemma prec_general_ok prec : 0 <= prec -> canonical m -> general_fine prec -> exists n, prec_general g showsign m e prec sp = Some n /\
  num_good B one_unit showsign n /\
  forall s, st_boundary s = B -> st_showpoint s = sp -> st_notation s = NGeneral -> st_precision s = Some prec ->
    num_text B (st_sep s) (st_point s) (st_case s) n = decimal_body s m e.
Proof using Hd Hr.
  intros Hp Hcan [G1 G2 G3]. destruct (dc_facts m e Hd) as (Hm & D1 & D2 & D3 & D4 & D5 & D6 & He). fold dc in D1, D2, D3, D4, D5.
  unfold prec_general. rewrite D4. cbv zeta. set (P := Z.max 1 prec) in *.
  assert (EP : (if prec =? 0 then 1 else prec) = P) by (unfold P; destruct (Z.eqb_spec prec 0); lia). rewrite EP.
  rewrite (seps_ok g gs rep (dc + e) Hr). cbn [obind]. fold B. set (sc := boundaries_below B (Z.to_nat (Z.max 1 (dc + e)))).
  assert (Hfix : forall n, num_wf n -> n_form n = FormFixed -> n_digcount n + n_e n = dc + e -> n_seps n = sc ->
     n_sub n = b2z showsign + n_seps n + Z.max 1 (dc + e) + b2z (n_point n) + fixed_places n -> num_good B one_unit showsign n).
  { intros n W Ef Ei Es Eu. assert (n_seps n = boundaries_below B (int_len n)).
    { rewrite Es. unfold sc. f_equal. pose proof (int_len_ok n W). lia. }
    constructor; [exact W|auto|congruence|]. rewrite num_text_len by exact W. rewrite Ef, <- H, Eu, Ei. unfold fixed_places.
    change (zlen [46]) with 1. change (zlen [44]) with 1. destruct (n_point n); cbn [b2z]; lia. }
  assert (Hsci : forall n, num_wf n -> n_form n = FormSci -> n_seps n = 0 \/ one_unit ->
     n_sub n = b2z showsign + n_digcount n + b2z (n_point n) + n_extra n + 4 + far (n_e n + n_digcount n - 1) -> num_good B one_unit showsign n).
  { intros n W Ef Es Eu. constructor; [exact W|congruence|intros _; exact Es|]. rewrite num_text_len by exact W. rewrite Ef, Eu.
    change (zlen [46]) with 1. destruct (n_point n); cbn [b2z]; lia. }
  assert (Hcz : e < 0 \/ 1 < dc -> m mod 10 <> 0). { intros H. destruct Hcan as [E|]; [|assumption]. exfalso. destruct H; [specialize (D6 ltac:(lia))|specialize (D5 ltac:(lia))]; lia. }
  destruct (Z.lt_ge_cases P dc) as [HPd|HPd].
  2: { (* nothing is rounded *)
    assert (SR : sci_rounded m e (P - 1) = (m * 10 ^ (P - dc), e + dc - 1)).
    { rewrite (sci_rounded_exact m e Hd) by (fold dc; lia). fold dc. do 3 f_equal. lia. }
    assert (GU := fun s En Ep => general_unfold s prec _ _ En Ep Hp SR). cbv zeta in GU. fold P in GU. fold dc in HPd.
    replace (P - dc <? 0) with false by lia.
    destruct ((dc + e <? -3) || (P <? dc + e)) eqn:Eform.
    - (* scientific *)
      assert (Efx : (-4 <=? e + dc - 1) && (e + dc - 1 <? P) = false) by lia.
      destruct sp.
      + eexists; split; [reflexivity|]. split.
        * apply Hsci; nproj; try reflexivity; [wf_tac|left; reflexivity|]. cbn [b2z]. replace (e + dc - 1) with (dc + e - 1) by lia. lia.
        * intros s EB Es En Ep. rewrite GU by assumption. rewrite Efx, Es. apply sci_num_text; nproj; try reflexivity; try lia.
          all: rewrite ?Es; reflexivity.
      + eexists; split; [reflexivity|]. split.
        * apply Hsci; nproj; try reflexivity; [wf_tac|left; reflexivity|]. replace (e + dc - 1) with (dc + e - 1) by lia. lia.
        * intros s EB Es En Ep. rewrite GU by assumption. rewrite Efx, Es.
          replace (P - 1) with ((P - dc) + (dc - 1)) by lia. rewrite stripped_mulz by lia.
          rewrite stripped_stop by (destruct (Z.eq_dec dc 1); [right; lia|left; apply Hcz; lia]). rewrite Z2Nat.id by lia.
          apply sci_num_text; nproj; try reflexivity; try lia.
    - (* fixed *)
      assert (Efx : (-4 <=? e + dc - 1) && (e + dc - 1 <? P) = true) by lia.
      destruct (Z.leb_spec 0 e) as [He0|He0].
      + destruct sp; cbn [andb].
        * set (xs := if dc + e <? P then (P - (dc + e), b2z showsign + sc + (dc + e) + (P - (dc + e))) else (0, b2z showsign + sc + (dc + e))).
          assert (Exs : xs = (P - (dc + e), b2z showsign + sc + P)). { unfold xs. destruct (Z.ltb_spec (dc + e) P); f_equal; lia. }
          rewrite Exs. eexists; split; [reflexivity|]. split.
          { apply Hfix; nproj; try reflexivity; [wf_tac|]. unfold fixed_places; nproj. cbn [b2z]. lia. }
          intros s EB Es En Ep. rewrite GU by assumption. rewrite Efx, Es. 
          apply fixed_num_text; nproj; try reflexivity; try assumption.
          { unfold fixed_scaled, fixed_places; nproj. f_equal. f_equal. lia. }
          { unfold fixed_places; nproj. lia. }
          all: rewrite ?Es; reflexivity.
        * eexists; split; [reflexivity|]. split.
          { apply Hfix; nproj; try reflexivity; [wf_tac|]. unfold fixed_places; nproj. cbn [b2z]. lia. }
          intros s EB Es En Ep. rewrite GU by assumption. rewrite Efx, Es.
          replace (P - 1 - (e + dc - 1)) with ((P - (e + dc)) + 0) by lia.
          replace (m * 10 ^ (P - dc)) with (m * 10 ^ e * 10 ^ (P - (e + dc))).
          2: { rewrite <- Z.mul_assoc, <- pow10_split by lia. do 2 f_equal. lia. }
          rewrite stripped_mulz by (try lia; pose proof (pow10_pos e He0); nia). cbn [Z.to_nat stripped].
          apply fixed_num_text; nproj; try reflexivity; try assumption.
          { unfold fixed_scaled, fixed_places; nproj. f_equal. f_equal. lia. }
          { unfold fixed_places; nproj. lia. }
          all: rewrite ?Es; reflexivity.
      + assert (Ewid : (if e <=? - dc then 1 - e else dc) = Z.max 1 (dc + e) - e) by (destruct (Z.leb_spec e (- dc)); lia).
        rewrite Ewid. destruct sp.
        * eexists; split; [reflexivity|]. split.
          { apply Hfix; nproj; try reflexivity; [wf_tac|]. unfold fixed_places; nproj. cbn [b2z]. lia. }
          intros s EB Es En Ep. rewrite GU by assumption. rewrite Efx, Es. 
          apply fixed_num_text; nproj; try reflexivity; try assumption.
          { unfold fixed_scaled, fixed_places; nproj. f_equal. f_equal. lia. }
          { unfold fixed_places; nproj. lia. }
          all: rewrite ?Es; reflexivity.
        * eexists; split; [reflexivity|]. split.
          { apply Hfix; nproj; try reflexivity; [wf_tac|]. unfold fixed_places; nproj. cbn [b2z]. lia. }
          intros s EB Es En Ep. rewrite GU by assumption. rewrite Efx, Es.
          replace (P - 1 - (e + dc - 1)) with ((P - dc) + (- e)) by lia. rewrite stripped_mulz by lia.
          rewrite stripped_stop by (left; apply Hcz; lia). rewrite Z2Nat.id by lia.
          apply fixed_num_text; nproj; try reflexivity; try assumption.
          { unfold fixed_scaled, fixed_places; nproj. replace (e + (Z.max 0 (- e) + 0)) with 0 by lia. cbn; lia. }
          { unfold fixed_places; nproj. lia. }
          replace (0 <? - e) with true by lia. reflexivity. }
  (* digits are removed *)
  assert (Hk : 1 <= dc - P < dc) by lia.
  destruct (sci_rounded_drop m e Hd (P - 1) ltac:(fold dc; lia)) as [SC SR]. fold dc in SC, SR.
  replace (dc - 1 - (P - 1)) with (dc - P) in SC, SR by lia. replace (P - 1 + 1) with P in SC, SR by lia.
  assert (Hpc : prec_carries prec = (nearest m (10 ^ (dc - P)) =? 10 ^ P)).
  { unfold prec_carries. fold P. rewrite SC. replace (P <? dc) with true by lia. reflexivity. }
  rewrite Hpc in G1, G2, G3. clear Hpc SC.
  replace (P - dc <? 0) with true by lia.
  set (isci := (dc + e <? -3) || (P <? dc + e)).
  (* one call *)
  assert (Hcall : exists f sub int seps, 
    (if isci then remove_digits g showsign FormSci m dc e (b2z showsign + 4 + far (dc + e - 1) + P) (P - dc) 1 0 prec sp
     else if 0 <=? e then Some (mk_num FormNan 0 0 0 0 0 false 0) 
     else remove_digits g showsign FormFixed m dc e (b2z showsign + sc + (if e <=? - dc then 1 - e else dc) + (P - dc)) (P - dc) (dc + e) sc prec sp)
    = remove_digits g showsign f m dc e sub (P - dc) int seps prec sp /\
    ((isci = true /\ f = FormSci /\ int = 1 /\ seps = 0 /\ sub = b2z showsign + 4 + far (dc + e - 1) + P) \/
     (isci = false /\ f = FormFixed /\ int = dc + e /\ seps = sc /\ e < 0 /\ -3 <= dc + e <= P /\ sub = b2z showsign + sc + Z.max 1 (dc + e) + (P - (dc + e))))).
  { destruct isci eqn:Ei.
    - exists FormSci, (b2z showsign + 4 + far (dc + e - 1) + P), 1, 0. split; [reflexivity|left; auto].
    - unfold isci in Ei. destruct (Z.leb_spec 0 e); [lia|].
      exists FormFixed, (b2z showsign + sc + (if e <=? - dc then 1 - e else dc) + (P - dc)), (dc + e), sc. split; [reflexivity|right].
      destruct (Z.leb_spec e (- dc)); repeat (split; [reflexivity||lia|]); lia. }
  destruct Hcall as (f & sub & int & seps & Ecall & Hcase).
  match goal with |- exists n, ?x = Some n /\ _ => assert (Ex : x = remove_digits g showsign f m dc e sub (P - dc) int seps prec sp) end.
  { rewrite <- Ecall. destruct isci eqn:Ei; [reflexivity|]. unfold isci in Ei. destruct (Z.leb_spec 0 e); [lia|]. reflexivity. }
  rewrite Ex. clear Ex Ecall. unfold remove_digits. cbv zeta.
  replace (- (P - dc)) with (dc - P) by lia. rewrite drop_digits_ok by lia. cbn [obind].
  replace (dc + (P - dc)) with P by lia. rewrite pow10_some by lia. cbn [obind].
  replace (e - (P - dc)) with (e + (dc - P)) by lia.
  assert (Egf : general_fixed prec = (-4 <=? snd (sci_rounded m e (P - 1))) && (snd (sci_rounded m e (P - 1)) <? P)) by reflexivity.
  destruct (Z.eqb_spec (nearest m (10 ^ (dc - P))) (10 ^ P)) as [Ec|Ec].
  - (* carry: one digit *)
    rewrite SR in Egf. cbn [snd] in Egf. specialize (G1 eq_refl). specialize (G2 eq_refl). clear G3.
    assert (GU := fun s En Ep => general_unfold s prec _ _ En Ep Hp SR). cbv zeta in GU. fold P in GU.
    replace (e + (dc - P) + P) with (e + dc) by lia. set (E := e + dc) in *.
    unfold general_1digit. rewrite EP.
    destruct ((E <? -4) || (P <=? E)) eqn:Eform.
    + assert (Efx : (-4 <=? E) && (E <? P) = false) by lia. rewrite Efx in Egf. specialize (G2 Egf).
      assert (Hseps : seps = 0 \/ one_unit).
      { destruct Hcase as [(_ & _ & _ & -> & _)|(_ & _ & _ & -> & He0 & Hrg & _)]; [left; reflexivity|].
        destruct G2 as [G2|[G2|G2]]; [left|unfold E in *; lia|right; exact G2]. rewrite <- G2. unfold sc. f_equal.
        pose proof (int_part_len m e Hd) as EI. fold dc in EI. lia. }
      destruct sp.
      * eexists; split; [reflexivity|]. split.
        { apply Hsci; nproj; try reflexivity; [wf_tac|exact Hseps|]. cbn [b2z]. replace (E + 1 - 1) with E by lia. lia. }
        intros s EB Es En Ep. rewrite GU by assumption. rewrite Efx, Es. 
        apply sci_num_text; nproj; try reflexivity; try lia. all: rewrite ?Es; reflexivity.
      * eexists; split; [reflexivity|]. split.
        { apply Hsci; nproj; try reflexivity; [wf_tac|exact Hseps|]. cbn [b2z]. replace (E + 1 - 1) with E by lia. lia. }
        intros s EB Es En Ep. rewrite GU by assumption. rewrite Efx, Es.
        replace (P - 1) with ((P - 1) + 0) at 1 by lia. rewrite <- (Z.mul_1_l (10 ^ (P - 1))). rewrite stripped_mulz by lia. cbn [Z.to_nat stripped].
        apply sci_num_text; nproj; try reflexivity; try lia. all: rewrite ?Es; reflexivity.
    + assert (Efx : (-4 <=? E) && (E <? P) = true) by lia. rewrite Efx in Egf. specialize (G1 Egf).
      destruct (Z.ltb_spec E 0) as [HE|HE].
      * assert (Es0 : seps = 0).
        { destruct Hcase as [(_ & _ & _ & -> & _)|(_ & _ & _ & -> & He0 & Hrg & _)]; [reflexivity|].
          unfold sc. replace (Z.max 1 (dc + e)) with 1 by (unfold E in *; lia). reflexivity. }
        assert (Hfix1 : forall n, num_wf n -> n_form n = FormFixed -> n_digcount n = 1 -> n_e n = E -> n_seps n = seps ->
           n_sub n = 1 + b2z (n_point n) + fixed_places n -> num_good B one_unit showsign n).
        { intros n W Ef Edc Een Ese Eu. assert (n_seps n = boundaries_below B (int_len n)).
          { rewrite Ese, Es0. pose proof (int_len_ok n W). replace (int_len n) with 1%nat by lia. reflexivity. }
          constructor; [exact W|auto|congruence|]. rewrite num_text_len by exact W. rewrite Ef, <- H, Eu, Edc, Een, Ese, Es0, G1. unfold fixed_places. rewrite Een.
          change (zlen [46]) with 1. change (zlen [44]) with 1. destruct (n_point n); cbn [b2z]; lia. }
        destruct sp.
        -- eexists; split; [reflexivity|]. split.
           { apply Hfix1; nproj; try reflexivity; [wf_tac|]. unfold fixed_places; nproj. cbn [b2z]. lia. }
           intros s EB Es En Ep. rewrite GU by assumption. rewrite Efx, Es. 
           apply fixed_num_text; nproj; try reflexivity; try assumption.
           { unfold fixed_scaled, fixed_places; nproj. rewrite Z.mul_1_l. f_equal. lia. }
           { unfold fixed_places; nproj. lia. }
           all: rewrite ?Es; reflexivity.
        -- eexists; split; [reflexivity|]. split.
           { apply Hfix1; nproj; try reflexivity; [wf_tac|]. unfold fixed_places; nproj. cbn [b2z]. lia. }
           intros s EB Es En Ep. rewrite GU by assumption. rewrite Efx, Es.
           replace (P - 1 - E) with ((P - 1) + (- E)) by lia. rewrite <- (Z.mul_1_l (10 ^ (P - 1))). rewrite stripped_mulz by lia.
           rewrite stripped_stop by (left; discriminate). rewrite Z2Nat.id by lia.
           apply fixed_num_text; nproj; try reflexivity; try assumption.
           { unfold fixed_scaled, fixed_places; nproj. replace (E + (Z.max 0 (- E) + 0)) with 0 by lia. reflexivity. }
           { unfold fixed_places; nproj. lia. }
           replace (0 <? - E) with true by lia. reflexivity.
      * rewrite (separators_count_ok g gs rep) by (assumption || lia). cbn [obind]. fold B. set (sc1 := boundaries_below B (Z.to_nat (1 + E))).
        assert (Hfix1 : forall n, num_wf n -> n_form n = FormFixed -> n_digcount n = 1 -> n_e n = E -> n_seps n = sc1 ->
           n_sub n = 1 + E + sc1 + b2z (n_point n) + fixed_places n -> num_good B one_unit showsign n).
        { intros n W Ef Edc Een Ese Eu. assert (n_seps n = boundaries_below B (int_len n)).
          { rewrite Ese. unfold sc1. f_equal. pose proof (int_len_ok n W). lia. }
          constructor; [exact W|auto|congruence|]. rewrite num_text_len by exact W. rewrite Ef, <- H, Eu, Edc, Een, Ese, G1. unfold fixed_places. rewrite Een.
          change (zlen [46]) with 1. change (zlen [44]) with 1. destruct (n_point n); cbn [b2z]; lia. }
        destruct sp; cbn [andb].
        -- set (X := if 1 + E <? P then _ else _).
           assert (EX : X = mk_num FormFixed 1 E 1 sc1 (P - (1 + E)) true (1 + E + sc1 + b2z true + (P - (1 + E)))).
           { unfold X. destruct (Z.ltb_spec (1 + E) P); [reflexivity|]. f_equal; lia. }
           rewrite EX. eexists; split; [reflexivity|]. split.
           { apply Hfix1; nproj; try reflexivity; [wf_tac|]. unfold fixed_places; nproj. cbn [b2z]. lia. }
           intros s EB Es En Ep. rewrite GU by assumption. rewrite Efx, Es. 
           apply fixed_num_text; nproj; try reflexivity; try assumption.
           { unfold fixed_scaled, fixed_places; nproj. rewrite Z.mul_1_l. f_equal. lia. }
           { unfold fixed_places; nproj. lia. }
           all: rewrite ?Es; reflexivity.
        -- eexists; split; [reflexivity|]. split.
           { apply Hfix1; nproj; try reflexivity; [wf_tac|]. unfold fixed_places; nproj. cbn [b2z]. lia. }
           intros s EB Es En Ep. rewrite GU by assumption. rewrite Efx, Es.
           replace (10 ^ (P - 1)) with (10 ^ E * 10 ^ (P - 1 - E)) by (rewrite <- pow10_split by lia; f_equal; lia).
           replace (P - 1 - E) with ((P - 1 - E) + 0) at 1 by lia. rewrite stripped_mulz by (try lia; pose proof (pow10_pos E); lia). cbn [Z.to_nat stripped].
           apply fixed_num_text; nproj; try reflexivity; try assumption.
           { unfold fixed_scaled, fixed_places; nproj. rewrite Z.mul_1_l. f_equal. lia. }
           { unfold fixed_places; nproj. lia. }
           all: rewrite ?Es; reflexivity.
  - (* no carry *)
    rewrite SR in Egf. cbn [snd] in Egf. clear G1 G2. rewrite SR in G3. cbn iota in G3.
    assert (GU := fun s En Ep => general_unfold s prec _ _ En Ep Hp SR). cbv zeta in GU. fold P in GU.
    destruct (nearest_dc m e Hd (dc - P) ltac:(fold dc; lia)) as [N1 N2]; [fold dc; replace (dc - (dc - P)) with P by lia; exact Ec|].
    fold dc in N1. replace (dc - (dc - P)) with P in N1 by lia. set (M := nearest m (10 ^ (dc - P))) in *.
    assert (Efx : (-4 <=? e + dc - 1) && (e + dc - 1 <? P) = negb isci) by (unfold isci; lia). rewrite Efx in *.
    assert (Hint : 0 <= P - int <= 22) by (destruct Hcase as [(_ & _ & -> & _)|(_ & _ & -> & _ & _ & Hrg & _)]; lia).
    destruct (stripped (Z.to_nat (P - int)) M) as [N' p'] eqn:ES.
    rewrite (strip_loop_ok 32 (Z.to_nat (P - int)) M P sub (e + (dc - P)) int N' p') by (try lia; exact ES). cbn [obind].
    destruct (stripped_spec (Z.to_nat (P - int)) M N' p' ltac:(lia) ES) as (S1 & S2 & S3). rewrite Z2Nat.id in S1, S2 by lia.
    set (k := P - int - p') in *.
    assert (HN' : 0 < N') by (destruct (Z.eq_dec N' 0) as [E0|]; [rewrite E0 in S2; lia|lia]).
    assert (Hdc' : zlen (digits 10 N') = int + p').
    { pose proof (dc_mul N' k HN' ltac:(unfold k; lia)) as E. rewrite <- S2, N1 in E. unfold k in E. lia. }
    assert (HN'' : N' < 10 ^ 19) by (pose proof (pow10_pos k ltac:(unfold k; lia)); nia).
    eexists; split; [reflexivity|]. set (n := mk_num _ _ _ _ _ _ _ _).
    assert (Hq : forall q, (if negb isci then P - 1 - (e + dc - 1) else P - 1) = q -> q = P - int).
    { intros q <-. destruct Hcase as [(-> & _ & -> & _)|(-> & _ & -> & _)]; cbn [negb]; lia. }
    assert (Hlen1 : 1 <= int + p') by (rewrite <- Hdc'; apply digits_nonneg_len; lia).
    destruct Hcase as [(Ei & -> & -> & -> & Esub)|(Ei & -> & -> & -> & He0 & Hrg & Esub)].
    + assert (W : num_wf n).
      { unfold n; constructor; nproj; try lia. all: try (intros [H|H]; [|lia]; replace (0 <? p') with true by lia; apply orb_true_r). }
      split.
      * apply Hsci; [exact W|reflexivity|left; reflexivity|]. unfold n; nproj. rewrite Esub.
        replace (e + (dc - P) + k + (1 + p') - 1) with (dc + e - 1) by (unfold k; lia). unfold k. lia.
      * intros s EB Es En Ep. rewrite GU by assumption. rewrite Ei, Es. cbn [negb].
        destruct sp.
        -- specialize (G3 eq_refl eq_refl ltac:(lia)). rewrite Egf, Ei in G3. cbn [negb] in G3.
           rewrite stripped_stop in ES by lia. apply pair_equal_spec in ES as [<- <-]. rewrite Z2Nat.id in * by lia.
           apply sci_num_text; unfold n; nproj; try reflexivity; try (unfold k; lia). all: rewrite ?Es; reflexivity.
        -- rewrite ES. apply sci_num_text; unfold n; nproj; try reflexivity; try (unfold k; lia).
           all: apply point_eq with (sp0 := false).
    + assert (Ee : e + (dc - P) + k = - p') by (unfold k; lia). assert (W : num_wf n).
      { unfold n; constructor; nproj; try lia. }
      assert (Efs : fixed_scaled n = N'). { unfold fixed_scaled, fixed_places, n; nproj. rewrite Ee. replace (- p' + (Z.max 0 (- - p') + 0)) with 0 by lia. lia. }
      assert (Efp : fixed_places n = p'). { unfold fixed_places, n; nproj. lia. }
      split.
      * apply Hfix; [exact W|reflexivity| |reflexivity|]; unfold n; nproj; [lia|]. unfold fixed_places; nproj. rewrite Esub, Ee.
        unfold k. destruct (sp || (0 <? p')); cbn [b2z]; lia.
      * intros s EB Es En Ep. rewrite GU by assumption. rewrite Ei, Es. cbn [negb].
        replace (P - 1 - (e + dc - 1)) with (P - (dc + e)) by lia.
        destruct sp.
        -- specialize (G3 eq_refl eq_refl ltac:(lia)). rewrite Egf, Ei in G3. cbn [negb] in G3.
           rewrite stripped_stop in ES by lia. apply pair_equal_spec in ES as [<- <-]. rewrite Z2Nat.id in * by lia.
           apply fixed_num_text; try assumption; try reflexivity.
        -- rewrite ES. apply fixed_num_text; try assumption; try reflexivity. unfold n; nproj.
           all: apply point_eq with (sp0 := false).
Qed.
End Init2.
