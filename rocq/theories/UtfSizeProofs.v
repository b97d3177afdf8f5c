(* The size functions predict the transcode functions; the unsafe functions
   agree with the safe ones on valid text. *)
From Verif Require Import Base UtfSpec UtfModel UtfBits UtfDecode UtfLoop UtfSizeModel.

(* What transcode_size must return, given the result of transcode with the
   same number of units of space. *)
Definition size_of (r : tc_result) : sz_result := mk_sz (zlen (t_out r)) (t_rest r) (t_reason r).
Definition size_from (n : Z) (r : tc_result) : sz_result :=
  mk_sz (n + zlen (t_out r)) (t_rest r) (t_reason r).

Section Sim.
  Variables (bits : Z) (step : Z -> list Z -> sres) (zstep : Z -> list Z -> zres)
            (over : Z -> Z -> Z -> bool) (repl : list Z) (stop : bool) (limit : Z).
  Hypothesis Hz : forall c rest, units bits (c :: rest) ->
    match step c rest with
    | SGood out k => zstep c rest = ZGood (zlen out) k
    | SBad k => if stop then zstep c rest = ZBad else zstep c rest = ZGood (zlen repl) k
    end.
  Hypothesis Hover : forall c rest n k size, zstep c rest = ZGood n k ->
    over size n limit = (limit <? size + n).

  Lemma sz_sim fuel : forall src size, units bits src ->
    sz_loop zstep over fuel src size limit =
    option_map (size_from size) (tc_loop step repl stop fuel src (limit - size)).
  Proof.
    induction fuel as [|fuel IH]; intros src size HU; [reflexivity|].
    cbn [sz_loop tc_loop]. destruct src as [|c rest].
    { cbn. unfold size_from; cbn. rewrite Z.add_0_r. reflexivity. }
    pose proof (Hz c rest HU) as H. pose proof (fun n k => Hover c rest n k size) as HO.
    apply units_cons in HU as [_ HU].
    assert (forall k, units bits (skipn k rest)) as HUk by (intros; now apply skipn_units).
    destruct (step c rest) as [out k|k].
    - rewrite H in HO |- *. rewrite (HO _ _ eq_refl).
      replace (limit - size <? zlen out) with (limit <? size + zlen out) by lia.
      destruct (limit <? size + zlen out).
      + cbn. unfold size_from; cbn. rewrite Z.add_0_r. reflexivity.
      + rewrite IH by auto. replace (limit - (size + zlen out)) with (limit - size - zlen out) by lia.
        destruct (tc_loop step repl stop fuel (skipn k rest) (limit - size - zlen out)) as [r|]; [|reflexivity].
        cbn. unfold size_from; cbn. rewrite zlen_app. f_equal. f_equal. lia.
    - destruct stop; rewrite H in HO |- *.
      + cbn. unfold size_from; cbn. rewrite Z.add_0_r. reflexivity.
      + rewrite (HO _ _ eq_refl).
        replace (limit - size <? zlen repl) with (limit <? size + zlen repl) by lia.
        destruct (limit <? size + zlen repl).
        * cbn. unfold size_from; cbn. rewrite Z.add_0_r. reflexivity.
        * rewrite IH by auto. replace (limit - (size + zlen repl)) with (limit - size - zlen repl) by lia.
          destruct (tc_loop step repl false fuel (skipn k rest) (limit - size - zlen repl)) as [r|]; [|reflexivity].
          cbn. unfold size_from; cbn. rewrite zlen_app. f_equal. f_equal. lia.
  Qed.
End Sim.

(* Without a limit test, when the limit cannot be reached. *)
Lemma sz_no_limit zstep m limit fuel : 0 <= m ->
  (forall c rest n k, zstep c rest = ZGood n k -> 0 <= n <= m * (1 + Z.of_nat k) /\ (k <= length rest)%nat) ->
  forall src size, size + m * zlen src <= limit ->
  sz_loop zstep over_no fuel src size limit = sz_loop zstep over_gt fuel src size limit.
Proof.
  intros Hm Hn. induction fuel as [|fuel IH]; intros src size HB; [reflexivity|].
  cbn [sz_loop]. destruct src as [|c rest]; [reflexivity|].
  destruct (zstep c rest) as [n k|] eqn:E; [|reflexivity].
  destruct (Hn _ _ _ _ E) as [Hn1 Hk]. rewrite zlen_cons in HB.
  assert (zlen (skipn k rest) = zlen rest - Z.of_nat k) as Hs by (unfold zlen; rewrite skipn_length; lia).
  unfold over_no, over_gt. pose proof (zlen_nonneg (skipn k rest)).
  replace (limit <? size + n) with false by nia.
  apply IH. rewrite Hs. nia.
Qed.

Definition size_matches (bits : Z) (tc : bool -> bool -> list Z -> Z -> option tc_result)
    (sz : bool -> bool -> list Z -> Z -> option sz_result) : Prop :=
  forall lax stop src limit, units bits src -> 0 <= limit ->
    sz lax stop src limit = option_map size_of (tc lax stop src limit).

Lemma size_from_0 o : option_map (size_from 0) o = option_map size_of o.
Proof. destruct o; reflexivity. Qed.

Ltac sim_tac bits lem :=
  erewrite (sz_sim bits); [rewrite Z.sub_0_r; apply size_from_0 | | | assumption].

(* parse8 is what the three UTF-8 loops test. *)
Lemma parse8_sem lax c rest : units 8 (c :: rest) -> 0x80 <= c ->
  parse8 lax c rest = match sem8 lax c rest with DGood _ k => (true, k) | DBad k => (false, k) end.
Proof.
  intros HU Hc.
  assert (parse8 lax c rest = match step_8_32 lax c rest with SGood _ k => (true, k) | SBad k => (false, k) end) as ->.
  { unfold parse8, step_8_32. replace (c <? 0x80) with false by lia.
    destruct (0xC0 =? Z.land c 0xE0); [destruct rest; bdestr; reflexivity|].
    destruct (0xE0 =? c); [destruct rest as [|? [|? ?]]; bdestr; reflexivity|].
    destruct (0xE0 =? Z.land c 0xF0); [destruct rest as [|? [|? ?]]; bdestr; reflexivity|].
    destruct rest as [|? [|? [|? ?]]]; bdestr; reflexivity. }
  rewrite step_8_32_sem by assumption. destruct (sem8 lax c rest); reflexivity.
Qed.

Lemma parse8_ascii lax c rest : units 8 (c :: rest) -> c < 0x80 -> parse8 lax c rest = (false, 0%nat).
Proof.
  intros HU Hc. ub. change (2 ^ 8) with 256 in *. unfold parse8.
  rewrite lead2_spec, lead3_spec by lia.
  replace ((0xC0 <=? c) && (c <=? 0xDF)) with false by lia.
  replace (0xE0 =? c) with false by lia.
  replace ((0xE0 <=? c) && (c <=? 0xEF)) with false by lia.
  destruct rest as [|c1 r1]; [reflexivity|].
  rewrite first_2_of_4_spec. pose proof (xor_F0 c ltac:(lia)) as HX.
  replace (0xF0 <=? c) with false in HX by lia. bsimp. ub.
  replace (first_2_of_4_valid _) with false; [rewrite andb_false_r; reflexivity|].
  unfold first_2_of_4_valid. symmetry. apply andb_false_iff. right. lia.
Qed.

Lemma sem8_ascii lax c rest : c < 0x80 -> sem8 lax c rest = DGood c 0.
Proof. intros; unfold sem8. replace (c <? 0x80) with true by lia. reflexivity. Qed.

(* Length of the encodings of a decoded sequence, from the number of units. *)
Lemma sem8_len lax c rest cp k : 0 <= c -> sem8 lax c rest = DGood cp k ->
  zlen (enc8 cp) = 1 + Z.of_nat k /\ zlen (enc16 cp) = (if (k =? 3)%nat then 2 else 1).
Proof.
  intros Hc H. pose proof (sem8_k lax c rest) as Hk. rewrite H in Hk.
  destruct (sem8_good _ _ _ _ _ Hc H) as [HV HE].
  assert (zlen (enc8 cp) = 1 + Z.of_nat k) as HL.
  { apply (f_equal zlen) in HE. rewrite zlen_cons, zlen_app in HE.
    unfold zlen in *. rewrite skipn_length in HE. lia. }
  split; [exact HL|].
  destruct HV as [HV _]. revert HL. unfold enc8, enc16, zlen. bdestr; bsimp; cbn [length];
    destruct k as [|[|[|[|k]]]]; cbn [Nat.eqb]; lia.
Qed.

Lemma size_8_32_ok : size_matches 8 transcode_8_32 size_8_32.
Proof.
  intros lax stop src limit HU HL. unfold size_8_32, transcode_8_32, transcode.
  destruct stop; sim_tac 8 0; try (unfold over_pre; intros c rest n k size).
  - intros c rest HU'. rewrite step_8_32_sem by assumption.
    unfold zstep_8_32_stop. destruct (Z.leb_spec 0x80 c).
    + rewrite parse8_sem by assumption. destruct (sem8 lax c rest); reflexivity.
    + rewrite sem8_ascii by assumption. reflexivity.
  - unfold zstep_8_32_stop. destruct (0x80 <=? c), (parse8 lax c rest) as [[] ?]; intros [=]; subst; lia.
  - intros c rest HU'. rewrite step_8_32_sem by assumption.
    unfold zstep_8_32_cont. destruct (Z_lt_le_dec c 0x80).
    + rewrite sem8_ascii, parse8_ascii by assumption. reflexivity.
    + rewrite parse8_sem by assumption. destruct (sem8 lax c rest); reflexivity.
  - unfold zstep_8_32_cont. destruct (parse8 lax c rest) as [[] ?]; intros [=]; subst; lia.
Qed.

Lemma size_8_16_ok : size_matches 8 transcode_8_16 size_8_16.
Proof.
  intros lax stop src limit HU HL. unfold size_8_16, transcode_8_16, transcode.
  destruct stop; sim_tac 8 0; try reflexivity.
  - intros c rest HU'. rewrite step_8_16_sem by assumption.
    assert (0 <= c) by (apply units_cons in HU'; lia).
    unfold zstep_8_16_stop. destruct (Z.leb_spec 0x80 c).
    + rewrite parse8_sem by assumption. destruct (sem8 lax c rest) eqn:E; [|reflexivity].
      cbn [conv]. apply sem8_len in E as [_ ->]; [reflexivity|assumption].
    + rewrite sem8_ascii by assumption. cbn [conv]. rewrite enc16_1 by lia. reflexivity.
  - intros c rest HU'. rewrite step_8_16_sem by assumption.
    assert (0 <= c) by (apply units_cons in HU'; lia).
    unfold zstep_8_16_cont. destruct (Z_lt_le_dec c 0x80).
    + rewrite sem8_ascii, parse8_ascii by assumption. cbn [conv]. rewrite enc16_1 by lia. reflexivity.
    + rewrite parse8_sem by assumption. destruct (sem8 lax c rest) eqn:E; [|reflexivity].
      cbn [conv andb]. apply sem8_len in E as [_ ->]; [reflexivity|assumption].
Qed.

(* The limit of utf8 -> utf8 / utf16 -> utf16 is cut at the length of the source,
   which the size cannot exceed. *)
Lemma sz_cut zstep fuel : (forall c rest n k, zstep c rest = ZGood n k ->
    n = 1 + Z.of_nat k /\ (k <= length rest)%nat) ->
  forall src size l l', size + zlen src <= l -> size + zlen src <= l' ->
  sz_loop zstep over_gt fuel src size l = sz_loop zstep over_gt fuel src size l'.
Proof.
  intros Hn. induction fuel as [|fuel IH]; intros src size l l' Hl Hl'; [reflexivity|].
  cbn [sz_loop]. destruct src as [|c rest]; [reflexivity|].
  destruct (zstep c rest) as [n k|] eqn:E; [|reflexivity].
  destruct (Hn _ _ _ _ E) as [-> Hk]. rewrite zlen_cons in Hl, Hl'.
  assert (zlen (skipn k rest) = zlen rest - Z.of_nat k) as Hs by (unfold zlen; rewrite skipn_length; lia).
  pose proof (zlen_nonneg (skipn k rest)). unfold over_gt.
  replace (l <? _) with false by lia. replace (l' <? _) with false by lia.
  apply IH; lia.
Qed.

Lemma parse8_k lax c rest v k : parse8 lax c rest = (v, k) -> (k <= length rest)%nat.
Proof.
  unfold parse8.
  destruct rest as [|c1 [|c2 [|c3 r]]]; bdestr; intros [=]; subst; cbn [length]; lia.
Qed.

Lemma size_8_8_stop_ok lax src limit : units 8 src -> 0 <= limit ->
  size_8_8 lax true src limit = option_map size_of (transcode_8_8 lax true src limit).
Proof.
  intros HU HL. unfold size_8_8, transcode_8_8, transcode.
  replace (sz_loop _ _ _ _ _ _) with (sz_loop (zstep_8_8_stop lax) over_gt (S (length src)) src 0 limit).
  - sim_tac 8 0; [|reflexivity].
    intros c rest HU'. rewrite step_8_8_sem by assumption.
    assert (0 <= c) by (apply units_cons in HU'; lia).
    unfold zstep_8_8_stop. destruct (Z.leb_spec 0x80 c).
    + rewrite parse8_sem by assumption. destruct (sem8 lax c rest) eqn:E; [|reflexivity].
      cbn [conv]. apply sem8_len in E as [-> _]; [reflexivity|assumption].
    + rewrite sem8_ascii by assumption. cbn [conv]. rewrite enc8_1 by lia. reflexivity.
  - destruct (Z.leb_spec limit (zlen src)); [reflexivity|].
    apply sz_cut; [|lia|lia]. intros c rest n k. unfold zstep_8_8_stop.
    destruct (0x80 <=? c); [|intros [= <- <-]; split; lia].
    destruct (parse8 lax c rest) as [[] k'] eqn:E; intros HZ; [|discriminate HZ].
    apply parse8_k in E. injection HZ as HZ1 HZ2. subst. split; [reflexivity|assumption].
Qed.

(* The "continue" variant compares with >=: it behaves as with one unit less. *)
Lemma sz_ge_gt zstep fuel : forall src size limit,
  sz_loop zstep over_ge fuel src size limit =
  option_map (fun s => s) (sz_loop zstep over_gt fuel src size (limit - 1)).
Proof.
  induction fuel as [|fuel IH]; intros src size limit; [reflexivity|].
  cbn [sz_loop]. destruct src as [|c rest]; [reflexivity|].
  destruct (zstep c rest) as [n k|]; [|reflexivity]. unfold over_ge, over_gt.
  replace (limit - 1 <? size + n) with (limit <=? size + n) by lia.
  destruct (limit <=? size + n); [reflexivity|]. apply IH.
Qed.

Lemma zstep_8_8_cont_ok lax c rest : units 8 (c :: rest) ->
  match step_8_8 lax c rest with
  | SGood out k => zstep_8_8_cont lax c rest = ZGood (zlen out) k
  | SBad k => zstep_8_8_cont lax c rest = ZGood (zlen repl8) k
  end.
Proof.
  intros HU'. rewrite step_8_8_sem by assumption.
  pose proof HU' as HU2. apply units_cons in HU2 as [Hc _]. change (2 ^ 8) with 256 in Hc.
  unfold zstep_8_8_cont. destruct (Z.ltb_spec c 0x80).
  { rewrite sem8_ascii by assumption. cbn [conv]. rewrite enc8_1 by lia. reflexivity. }
  rewrite parse8_sem by assumption. rewrite lead2_spec, lead3_spec by lia.
  destruct (sem8 lax c rest) as [cp k|k] eqn:E.
  - cbn [conv]. pose proof (sem8_len _ _ _ _ _ (proj1 Hc) E) as [-> _].
    clear HU'. revert E. unfold sem8. replace (c <? 0x80) with false by lia.
    destruct ((0xC2 <=? c) && (c <=? 0xDF)) eqn:E1.
    { replace ((0xC0 <=? c) && (c <=? 0xDF)) with true by lia.
      destruct rest as [|b1 r1]; bdestr; intros [=]; subst; reflexivity. }
    destruct ((0xE0 <=? c) && (c <=? 0xEF)) eqn:E2.
    { replace ((0xC0 <=? c) && (c <=? 0xDF)) with false by lia.
      destruct rest as [|b1 [|b2 r1]]; bdestr; intros [=]; subst; reflexivity. }
    destruct ((0xF0 <=? c) && (c <=? 0xF4)) eqn:E3; [|intros [=]].
    replace ((0xC0 <=? c) && (c <=? 0xDF)) with false by lia.
    replace (0xE0 =? c) with false by lia.
    destruct rest as [|b1 [|b2 [|b3 r1]]]; bdestr; intros [=]; subst; reflexivity.
  - cbn [conv]. bdestr; reflexivity.
Qed.

Lemma size_8_8_cont_ok lax src limit : units 8 src -> 1 <= limit ->
  size_8_8 lax false src limit = option_map size_of (transcode_8_8 lax false src (limit - 1)).
Proof.
  intros HU HL. unfold size_8_8, transcode_8_8, transcode. rewrite sz_ge_gt.
  erewrite (sz_sim 8); [rewrite Z.sub_0_r, size_from_0 | | | assumption].
  - instantiate (1 := false). instantiate (1 := repl8). instantiate (1 := step_8_8 lax).
    destruct (tc_loop _ _ _ _ _ _); reflexivity.
  - intros c rest HU'. apply zstep_8_8_cont_ok; assumption.
  - reflexivity.
Qed.

Lemma size_16_32_ok : size_matches 16 transcode_16_32 size_16_32.
Proof.
  intros lax stop src limit HU HL. unfold size_16_32, transcode_16_32, transcode.
  destruct (negb lax && stop) eqn:ES; sim_tac 16 0.
  - apply andb_prop in ES as [ES ->]. intros c rest _. unfold step_16_32, zstep_16_32_stop. rewrite ES.
    destruct (is_surrogate c); [|reflexivity]. destruct rest; bdestr; reflexivity.
  - unfold over_pre, zstep_16_32_stop. intros c rest n k size.
    destruct rest; bdestr; intros [=]; subst; lia.
  - intros c rest _. unfold step_16_32, zstep_16_32_cont.
    destruct (is_surrogate c) eqn:Es.
    + destruct rest as [|c2 r].
      * destruct lax; cbn in *; subst; reflexivity.
      * destruct (is_high_surrogate c && is_low_surrogate c2); [reflexivity|].
        destruct lax; cbn in *; subst; reflexivity.
    + assert (is_high_surrogate c = false) as ->.
      { rewrite is_surrogate_spec in Es. rewrite is_high_spec. unfold is_surr in Es. lia. }
      destruct rest; reflexivity.
  - unfold over_pre, zstep_16_32_cont. intros c rest n k size.
    destruct rest; bdestr; intros [=]; subst; lia.
Qed.

Lemma size_16_16_ok : size_matches 16 transcode_16_16 size_16_16.
Proof.
  intros lax stop src limit HU HL. unfold size_16_16, transcode_16_16, transcode.
  assert (forall c rest n k, zstep_16_16 (negb lax && stop) c rest = ZGood n k ->
    n = 1 + Z.of_nat k /\ (k <= length rest)%nat) as HZ.
  { intros c rest n k. unfold zstep_16_16. destruct rest; bdestr; intros [=]; subst; cbn [length]; split; lia. }
  replace (sz_loop _ _ _ _ _ _)
    with (sz_loop (zstep_16_16 (negb lax && stop)) over_gt (S (length src)) src 0 limit).
  - sim_tac 16 0; [|reflexivity].
    intros c rest _. unfold step_16_16, zstep_16_16.
    destruct (is_surrogate c); [|reflexivity].
    destruct rest as [|c2 r]; [destruct lax, stop; reflexivity|].
    destruct (is_high_surrogate c && is_low_surrogate c2); [reflexivity|destruct lax, stop; reflexivity].
  - destruct (Z.ltb_spec limit (zlen src)).
    + replace (limit <=? zlen src) with true by lia. reflexivity.
    + destruct (Z.leb_spec limit (zlen src)).
      * assert (limit = zlen src) as -> by lia. symmetry. apply (sz_no_limit _ 1); [lia| |lia].
        intros c rest n k E. apply HZ in E as [-> ?]. lia.
      * transitivity (sz_loop (zstep_16_16 (negb lax && stop)) over_gt (S (length src)) src 0 (zlen src)).
        -- apply sz_cut; [exact HZ|lia|lia].
        -- symmetry. apply (sz_no_limit _ 1); [lia| |lia].
           intros c rest n k E. apply HZ in E as [-> ?]. lia.
Qed.

Lemma step_16_8_pos lax c rest : match step_16_8 lax c rest with
  | SGood out _ => 0 < zlen out | _ => True end.
Proof. unfold step_16_8. destruct rest; bdestr; cbn; auto; lia. Qed.

Lemma zstep_16_8_cont_ok lax stop c rest : negb lax && stop = false ->
  match step_16_8 lax c rest with
  | SGood out k => zstep_16_8_cont c rest = (zlen out, k)
  | SBad k => stop = false /\ zstep_16_8_cont c rest = (3, k)
  end.
Proof.
  intros ES. unfold step_16_8, zstep_16_8_cont.
  destruct (c <? 0x80); [reflexivity|]. destruct (c <? 0x800); [reflexivity|].
  destruct (is_surrogate c) eqn:Es; cbn [negb].
  - destruct rest as [|c2 r]; [destruct lax; cbn in *; subst; auto|].
    destruct (is_high_surrogate c && is_low_surrogate c2); [reflexivity|destruct lax; cbn in *; subst; auto].
  - assert (is_high_surrogate c = false) as ->.
    { rewrite is_surrogate_spec in Es. rewrite is_high_spec. unfold is_surr in Es. lia. }
    destruct rest; reflexivity.
Qed.

Lemma sz_loop_16_8_ok lax stop fuel : negb lax && stop = false -> forall src size limit,
  (length src < fuel)%nat -> size < limit \/ (size = limit /\ limit = 0) ->
  sz_loop_16_8 fuel src size limit =
  option_map (size_from size) (tc_loop (step_16_8 lax) repl8 stop fuel src (limit - size)).
Proof.
  intros ES. induction fuel as [|fuel IH]; intros src size limit Hf HL; [reflexivity|].
  cbn [sz_loop_16_8 tc_loop]. destruct src as [|c rest].
  { cbn. unfold size_from; cbn. rewrite Z.add_0_r. reflexivity. }
  cbn [length] in Hf.
  pose proof (zstep_16_8_cont_ok lax stop c rest ES) as HZ.
  pose proof (step_16_8_pos lax c rest) as HP.
  assert (forall fuel' rest', (length rest' < fuel')%nat ->
    tc_loop (step_16_8 lax) repl8 stop fuel' rest' 0 =
    Some (mk_tc rest' [] (match rest' with [] => Completed | _ => Insufficient end)
       (match rest' with [] => [] | c :: r => match step_16_8 lax c r with SBad k => [(c :: r, Z.of_nat (S k))] | _ => [] end end))) as H0.
  { intros [|fuel'] rest' HF; [lia|]. destruct rest' as [|c' r']; [reflexivity|]. cbn [tc_loop].
    pose proof (step_16_8_pos lax c' r'). pose proof (zstep_16_8_cont_ok lax stop c' r' ES) as H1.
    destruct (step_16_8 lax c' r').
    - replace (0 <? zlen out) with true by lia. reflexivity.
    - destruct H1 as [-> _]. reflexivity. }
  assert (forall n k (w : list Z), zlen w = n -> 0 < n -> zstep_16_8_cont c rest = (n, k) ->
    forall nt, 
    (let (n, k) := zstep_16_8_cont c rest in
     if limit <=? size + n then
       if limit <? size + n then Some (mk_sz size (c :: rest) Insufficient)
       else match skipn k rest with
            | [] => Some (mk_sz (size + n) [] Completed)
            | _ :: _ => Some (mk_sz (size + n) (skipn k rest) Insufficient)
            end
     else sz_loop_16_8 fuel (skipn k rest) (size + n) limit) =
    option_map (size_from size)
      (if limit - size <? zlen w then Some (mk_tc (c :: rest) [] Insufficient nt)
       else do r <- tc_loop (step_16_8 lax) repl8 stop fuel (skipn k rest) (limit - size - zlen w);
            Some (mk_tc (t_rest r) (w ++ t_out r) (t_reason r) (nt ++ t_notes r)))) as HG.
  { intros n k w Hw Hn Ez nt. rewrite Ez, Hw.
    assert (length (skipn k rest) < fuel)%nat by (rewrite skipn_length; lia).
    destruct (Z.leb_spec limit (size + n)).
    - destruct (Z.ltb_spec limit (size + n)).
      + replace (limit - size <? n) with true by lia. cbn. unfold size_from; cbn. rewrite Z.add_0_r. reflexivity.
      + replace (limit - size <? n) with false by lia. replace (limit - size - n) with 0 by lia.
        rewrite H0 by assumption. cbn. unfold size_from; cbn. rewrite zlen_app, zlen_nil.
        destruct (skipn k rest); do 2 f_equal; lia.
    - replace (limit - size <? n) with false by lia. rewrite IH by (auto; lia).
      replace (limit - (size + n)) with (limit - size - n) by lia.
      destruct (tc_loop _ _ _ _ _ _) as [r|]; [|reflexivity].
      cbn. unfold size_from; cbn. rewrite zlen_app. do 2 f_equal. lia. }
  destruct (step_16_8 lax c rest) as [out k|k].
  - apply (HG (zlen out) k out eq_refl HP HZ []).
  - destruct HZ as [-> HZ]. apply (HG 3 k repl8 eq_refl ltac:(lia) HZ [(c :: rest, Z.of_nat (S k))]).
Qed.

Lemma size_16_8_ok : size_matches 16 transcode_16_8 size_16_8.
Proof.
  intros lax stop src limit HU HL. unfold size_16_8, transcode_16_8, transcode.
  destruct (negb lax && stop) eqn:ES.
  - sim_tac 16 0; [|reflexivity].
    apply andb_prop in ES as [ES ->]. apply negb_true_iff in ES; subst lax.
    intros c rest _. unfold step_16_8, zstep_16_8_stop.
    destruct (c <? 0x80); [reflexivity|]. destruct (c <? 0x800); [reflexivity|].
    destruct (is_surrogate c); cbn [negb]; [|reflexivity]. destruct rest; bdestr; reflexivity.
  - rewrite (sz_loop_16_8_ok lax stop) by (auto; lia). rewrite Z.sub_0_r. apply size_from_0.
Qed.

Lemma size_32_8_ok : size_matches 32 transcode_32_8 size_32_8.
Proof.
  intros lax stop src limit HU HL. unfold size_32_8, transcode_32_8, transcode.
  replace (sz_loop _ _ _ _ _ _)
    with (sz_loop (zstep_32_8 stop (negb lax)) over_gt (S (length src)) src 0 limit).
  - sim_tac 32 0; [|reflexivity].
    intros c rest HU'. unfold step_32_8, zstep_32_8. rewrite !is_surrogate_spec.
    destruct (is_surr c) eqn:ES.
    + apply surr_range in ES. ltf. destruct lax, stop; reflexivity.
    + rewrite andb_false_r, orb_true_r. cbn [orb].
      unfold b2z. destruct stop; bdestr; bsimp; try lia; try discriminate; try reflexivity.
  - destruct (Z.ltb_spec limit (zlen src * 4)); [reflexivity|].
    symmetry. apply (sz_no_limit _ 4); [lia| |lia].
    intros c rest n k. unfold zstep_32_8, b2z. bdestr; intros [=]; subst; lia.
Qed.

Lemma size_32_16_ok : size_matches 32 transcode_32_16 size_32_16.
Proof.
  intros lax stop src limit HU HL. unfold size_32_16, transcode_32_16, transcode.
  replace (sz_loop _ _ _ _ _ _)
    with (sz_loop (zstep_32_16 stop (negb lax)) over_gt (S (length src)) src 0 limit).
  - sim_tac 32 0; [|reflexivity].
    intros c rest HU'. unfold step_32_16, zstep_32_16. rewrite !is_surrogate_spec.
    destruct (is_surr c) eqn:ES.
    + apply surr_range in ES. ltf. destruct lax, stop; reflexivity.
    + rewrite andb_false_r, orb_true_r. cbn [orb].
      destruct stop; bdestr; bsimp; try lia; try discriminate; try reflexivity.
  - destruct (Z.ltb_spec limit (zlen src * 2)); [reflexivity|].
    symmetry. apply (sz_no_limit _ 2); [lia| |lia].
    intros c rest n k. unfold zstep_32_16. bdestr; intros [=]; subst; lia.
Qed.

Lemma step_32_32_cases lax c rest :
  (exists o, step_32_32 lax c rest = SGood [o] 0) \/ step_32_32 lax c rest = SBad 0.
Proof. unfold step_32_32; bdestr; eauto. Qed.

Lemma tc_32_32_cont lax fuel : forall src space, (length src < fuel)%nat -> 0 <= space ->
  option_map size_of (tc_loop (step_32_32 lax) repl32 false fuel src space) =
  Some (if zlen src <=? space then mk_sz (zlen src) [] Completed
        else mk_sz space (skipn (Z.to_nat space) src) Insufficient).
Proof.
  induction fuel as [|fuel IH]; intros src space Hf Hs; [lia|].
  destruct src as [|c rest]; cbn [tc_loop length] in *.
  { rewrite zlen_nil. replace (0 <=? space) with true by lia. reflexivity. }
  rewrite zlen_cons.
  assert (forall o n, option_map size_of
    (if space <? zlen [o] then Some (mk_tc (c :: rest) [] Insufficient n)
     else do r <- tc_loop (step_32_32 lax) repl32 false fuel (skipn 0 rest) (space - zlen [o]);
          Some (mk_tc (t_rest r) ([o] ++ t_out r) (t_reason r) (n ++ t_notes r))) =
    Some (if 1 + zlen rest <=? space then mk_sz (1 + zlen rest) [] Completed
          else mk_sz space (skipn (Z.to_nat space) (c :: rest)) Insufficient)) as HG.
  { intros o n. change (zlen [o]) with 1. cbn [skipn]. destruct (Z.ltb_spec space 1).
    - assert (space = 0) as -> by lia. pose proof (zlen_nonneg rest).
      replace (1 + zlen rest <=? 0) with false by lia. reflexivity.
    - specialize (IH rest (space - 1) ltac:(lia) ltac:(lia)).
      destruct (tc_loop _ _ _ _ _ _) as [r|]; [|discriminate]. cbn [option_map obind] in *.
      injection IH as IH. unfold size_of in *. cbn [t_out t_rest t_reason]. rewrite zlen_app.
      change (zlen [o]) with 1. f_equal.
      replace (zlen rest <=? space - 1) with (1 + zlen rest <=? space) in IH by lia.
      destruct (1 + zlen rest <=? space); injection IH as E1 E2 E3; rewrite E1, E2, E3; f_equal; try lia.
      replace (Z.to_nat space) with (S (Z.to_nat (space - 1))) by lia. reflexivity. }
  destruct (step_32_32_cases lax c rest) as [[o ->] | ->].
  - apply (HG o []).
  - apply (HG _ [(c :: rest, Z.of_nat 1)]).
Qed.

(* utf32 -> utf32 agrees for an unsigned source character type, and for a
   signed one when no unit has its top bit set. *)
Lemma size_32_32_gen sgn lax stop src limit : units 32 src -> 0 <= limit ->
  (sgn = true -> Forall (fun c => c < 2 ^ 31) src) ->
  size_32_32 sgn lax stop src limit = option_map size_of (transcode_32_32 lax stop src limit).
Proof.
  intros HU HL HS. unfold size_32_32, transcode_32_32, transcode.
  destruct stop; cbn [negb].
  - set (P := fun c => 0 <= c < 2 ^ 32 /\ (sgn = true -> c < 2 ^ 31)).
    assert (Forall P src) as HP.
    { apply Forall_forall. intros c Hc. split; [exact (proj1 (Forall_forall _ _) HU c Hc)|].
      intros Hsg. specialize (HS Hsg). exact (proj1 (Forall_forall _ _) HS c Hc). }
    assert (forall ov, (forall size n, ov size n limit = (limit <? size + n) \/ n <> 1) ->
      sz_loop (zstep_32_32 sgn (negb lax)) ov (S (length src)) src 0 limit =
      option_map size_of (tc_loop (step_32_32 lax) repl32 true (S (length src)) src limit)) as HG.
    { intros ov Hov. rewrite <- size_from_0. replace limit with (limit - 0) at 2 by lia.
      generalize (S (length src)) as fuel. intros fuel. generalize 0 as size. revert src HP HU HS.
      induction fuel as [|fuel IH]; intros src; intros HP _ _ size; [reflexivity|].
      cbn [sz_loop tc_loop]. destruct src as [|c rest].
      { cbn. unfold size_from; cbn. rewrite Z.add_0_r. reflexivity. }
      inversion HP as [|? ? [Hc Hc'] HP']; subst.
      assert (as_src_char sgn c = c) as Hac.
      { unfold as_src_char. destruct sgn; [|reflexivity]. apply to_i_id; [lia|].
        change (2 ^ (32 - 1)) with (2 ^ 31). specialize (Hc' eq_refl). lia. }
      assert (zstep_32_32 sgn (negb lax) c rest =
         match step_32_32 lax c rest with SGood _ _ => ZGood 1 0 | SBad _ => ZBad end) as ->.
      { unfold zstep_32_32, step_32_32. rewrite Hac.
        destruct lax; cbn [negb andb orb]; rewrite ?orb_false_r; bdestr; reflexivity. }
      destruct (step_32_32_cases lax c rest) as [[o ->] | ->].
      - destruct (Hov size 1) as [->|]; [|lia]. change (zlen [o]) with 1.
        replace (limit - size <? 1) with (limit <? size + 1) by lia.
        destruct (limit <? size + 1); [cbn; unfold size_from; cbn; rewrite Z.add_0_r; reflexivity|].
        cbn [skipn]. rewrite IH; auto; [|apply Forall_impl with (2 := HP'); intros ? [? ?]; assumption|
          intros Hsg; apply Forall_impl with (2 := HP'); intros ? [? ?]; auto].
        replace (limit - size - 1) with (limit - (size + 1)) by lia.
        destruct (tc_loop _ _ _ _ _ _); [|reflexivity]. cbn. unfold size_from; cbn [t_out t_rest t_reason].
        rewrite zlen_cons. do 2 f_equal. lia.
      - cbn. unfold size_from; cbn. rewrite Z.add_0_r. reflexivity. }
    destruct (Z.leb_spec (zlen src) limit).
    + rewrite (sz_no_limit _ 1); [apply HG; intros; left; reflexivity|lia| |lia].
      intros c rest n k. unfold zstep_32_32. bdestr; intros [=]; subst; lia.
    + apply HG. intros size n. unfold over_pre. destruct (Z.eq_dec n 1); [left; lia|right; lia].
  - rewrite tc_32_32_cont by lia. destruct (zlen src <=? limit); reflexivity.
Qed.
