(* Exact conditions under which the size functions that deviate are right. *)
From Verif Require Import Base DestModel DestProofs UtfSpec UtfModel UtfBits UtfDecode UtfLoop
  UtfSizeModel UtfSizeProofs UtfUnsafeProofs UtfForms UtfTheorems.

(* The declarative result is unique (up to the notifications). *)
Lemma transcoded_same se de stop sp r r' : forall done todo done' todo',
  done ++ todo = done' ++ todo' -> (length done <= length done')%nat ->
  t_rest r = srcs_of se todo -> t_out r = outs_of de done ->
  match t_reason r with
  | Completed => todo = []
  | Insufficient => exists it more, todo = it :: more /\ zlen (t_out r) + zlen (out_of de it) > sp /\ (stop = true -> is_bad it = false)
  | InvalidSequence => stop = true /\ exists b more, todo = Bad b :: more
  end ->
  t_rest r' = srcs_of se todo' -> t_out r' = outs_of de done' -> zlen (t_out r') <= sp ->
  (stop = true -> existsb is_bad done' = false) ->
  match t_reason r' with
  | Completed => todo' = []
  | Insufficient => exists it more, todo' = it :: more /\ zlen (t_out r') + zlen (out_of de it) > sp /\ (stop = true -> is_bad it = false)
  | InvalidSequence => stop = true /\ exists b more, todo' = Bad b :: more
  end -> size_of r = size_of r'.
Proof.
  intros done todo done' todo' E HL Hr Ho HR Hr' Ho' HS' HB' HR'.
  assert (exists x, done' = done ++ x /\ todo = x ++ todo') as (x & -> & ->).
  { exists (skipn (length done) done'). pose proof (firstn_skipn (length done) done') as F.
    assert (firstn (length done) done' = done) as F1.
    { apply (f_equal (firstn (length done))) in E. rewrite firstn_app, firstn_all, Nat.sub_diag in E. cbn [firstn] in E.
      rewrite app_nil_r, firstn_app in E. replace (length done - length done')%nat with 0%nat in E by lia.
      cbn [firstn] in E. rewrite app_nil_r in E. symmetry. exact E. }
    rewrite F1 in F. split; [symmetry; exact F|]. rewrite <- F in E. rewrite <- app_assoc in E. exact (app_inv_head _ _ _ E). }
  destruct x as [|it x].
  - rewrite app_nil_r in *. cbn [app] in *. unfold size_of. rewrite Hr, Hr', Ho, Ho'. f_equal.
    destruct (t_reason r), (t_reason r'); try reflexivity; exfalso.
    + destruct HR' as (it & more & E' & _). congruence.
    + destruct HR' as (_ & b & more & E'). congruence.
    + destruct HR as (it & more & E' & _). congruence.
    + destruct HR as (it & more & E' & _ & Hb). destruct HR' as (Hst & b & more' & E2).
      specialize (Hb Hst). rewrite E' in E2. injection E2 as -> _. discriminate.
    + destruct HR as (_ & b & more & E'). congruence.
    + destruct HR' as (it & more & E' & _ & Hb). destruct HR as (Hst & b & more' & E2).
      specialize (Hb Hst). rewrite E' in E2. injection E2 as -> _. discriminate.
  - exfalso. rewrite Ho' in HS'. rewrite outs_app in HS'. cbn [outs_of flat_map] in HS'. rewrite !zlen_app in HS'.
    pose proof (zlen_nonneg (flat_map (out_of de) x)) as HN.
    destruct (t_reason r).
    + discriminate.
    + destruct HR as (it' & more & [= <- _] & Hgt & _). rewrite Ho in Hgt. lia.
    + destruct HR as (-> & b & more & [= -> _]). specialize (HB' eq_refl).
      rewrite existsb_app in HB'. cbn in HB'. rewrite orb_true_r in HB'. discriminate.
Qed.
Lemma transcoded_det se de stop its sp r r' :
  transcoded se de stop its sp r -> transcoded se de stop its sp r' -> size_of r = size_of r'.
Proof.
  intros (d & t & E & Hr & Ho & HS & HB & HR) (d' & t' & E' & Hr' & Ho' & HS' & HB' & HR').
  assert (forall R (T : list item) (O : list Z) N1 N2 N3,
    match R with Completed => T = [] /\ N1 | Insufficient => exists it more, T = it :: more /\
        zlen O + zlen (out_of de it) > sp /\ (stop = true -> is_bad it = false) /\ N2 more
      | InvalidSequence => stop = true /\ exists b more, T = Bad b :: more /\ N3 more end ->
    match R with Completed => T = [] | Insufficient => exists it more, T = it :: more /\ zlen O + zlen (out_of de it) > sp /\ (stop = true -> is_bad it = false)
      | InvalidSequence => stop = true /\ exists b more, T = Bad b :: more end) as Hw.
  { intros R T O N1 N2 N3. destruct R; [tauto|intros (it & more & ? & ? & ? & _); eauto|intros (? & b & more & ? & _); eauto]. }
  apply (Hw (t_reason r) t (t_out r)) in HR. apply (Hw (t_reason r') t' (t_out r')) in HR'.
  destruct (Nat.le_ge_cases (length d) (length d')).
  - apply (transcoded_same se de stop sp r r' d t d' t'); auto; congruence.
  - symmetry. apply (transcoded_same se de stop sp r' r d' t' d t); auto; congruence.
Qed.

(* utf8 -> utf8, continue *)
Lemma size_8_8_exact lax src limit : units 8 src -> 0 <= limit ->
  exists z r, size_8_8 lax false src limit = Some z /\ transcode_8_8 lax false src limit = Some r /\
    (z = size_of r <-> limit = 0 \/ zlen (t_out r) < limit).
Proof.
  intros HU HL. destruct (items_exist_of U8 lax src HU) as [its HI].
  destruct (transcode_items U8 U8 lax false src limit its HU HL HI) as (r & Hr & HT). cbn [transcode_of] in Hr.
  destruct (Z.eq_dec limit 0) as [->|H0].
  { assert (size_8_8 lax false src 0 = Some (size_of r)) as Hz; [|exists (size_of r), r; repeat split; auto].
    destruct HT as (d & t & -> & Hrest & Ho & Hs & _ & HR). unfold size_8_8. cbn [sz_loop].
    pose proof (items_src _ _ _ _ HI) as Hsrc.
    assert (d = []) as ->.
    { destruct d as [|it d]; [reflexivity|]. exfalso. rewrite Ho in Hs. cbn [outs_of flat_map] in Hs. rewrite zlen_app in Hs.
      pose proof (out_len U8 it). pose proof (zlen_nonneg (flat_map (out_of (enc_of U8)) d)). lia. }
    cbn [app] in *. assert (Hrs : t_rest r = src) by congruence. clear Hrest. rename Hrs into Hrest.
    destruct src as [|c rest].
    - destruct (t_reason r) eqn:ER.
      + unfold size_of. rewrite Ho, Hrest, ER. reflexivity.
      + destruct HR as (it & more & -> & _). inversion HI as [|? ? ? HV _ _ E|? ? ? _ HM _ E].
        * apply app_eq_nil in E as [E _]. pose proof (enc_of_len U8 cp) as Hl. cbn [enc_of] in Hl, E; rewrite E in Hl; cbn in Hl; lia.
        * apply app_eq_nil in E as [-> _]. destruct HM as (_ & [N|[N _]] & _); [discriminate|congruence].
      + destruct HR as [[=] _].
    - destruct (zstep_8_8_cont lax c rest) as [n k|] eqn:EZ.
      + assert (over_ge 0 n 0 = true) as ->.
        { unfold over_ge. unfold zstep_8_8_cont in EZ. destruct (c <? 0x80); [injection EZ as <- _; reflexivity|].
          destruct (parse8 lax c rest) as [v kk]. destruct (0xC0 =? _); [injection EZ as <- _; destruct v; reflexivity|].
          destruct (0xE0 =? c); [injection EZ as <- _; reflexivity|].
          destruct (0xE0 =? _); [injection EZ as <- _; reflexivity|]. injection EZ as <- _. destruct v; reflexivity. }
        unfold size_of. rewrite Ho, Hrest. cbn [outs_of flat_map]. destruct (t_reason r); [|reflexivity|destruct HR as [[=] _]].
        destruct HR as [-> _]. discriminate.
      + exfalso. unfold zstep_8_8_cont in EZ. destruct (c <? 0x80); [discriminate|].
        destruct (parse8 lax c rest) as [v kk]. destruct (0xC0 =? _); [discriminate|].
        destruct (0xE0 =? c); [discriminate|]. destruct (0xE0 =? _); discriminate. }
  destruct (transcode_items U8 U8 lax false src (limit - 1) its HU ltac:(lia) HI) as (r1 & Hr1 & HT1).
  cbn [transcode_of] in Hr1. exists (size_of r1), r. rewrite size_8_8_cont_ok by (auto; lia). rewrite Hr1.
  split; [reflexivity|]. split; [exact Hr|]. split.
  - intros E. right. destruct HT1 as (_ & _ & _ & _ & _ & Hs & _). injection E as E _ _. lia.
  - intros [|H]; [contradiction|]. apply (transcoded_det (enc_of U8) (enc_of U8) false its (limit - 1)); [exact HT1|].
    destruct HT as (d & t & E & Hrest & Ho & Hs & HB & HR). exists d, t. repeat (split; [auto; try lia|]).
    destruct (t_reason r); auto. destruct HR as (it & more & ? & ? & ? & ?). exists it, more. repeat split; auto. lia.
Qed.

(* utf32 -> utf32 with a signed source character type, stopping *)
Lemma sz_loop_rest step ov fuel : forall src size limit z, sz_loop step ov fuel src size limit = Some z ->
  (length (s_rest z) <= length src)%nat.
Proof.
  induction fuel as [|fuel IH]; intros src size limit z H; cbn [sz_loop] in H; [discriminate|].
  destruct src as [|c rest]; [injection H as <-; cbn; lia|].
  destruct (step c rest) as [n k|]; [|injection H as <-; cbn; lia].
  destruct (ov size n limit); [injection H as <-; cbn; lia|]. apply IH in H. rewrite skipn_length in H. cbn [length]. lia.
Qed.
Definition stopped_at_top (r : tc_result) : Prop :=
  t_reason r = InvalidSequence /\ exists c rest, t_rest r = c :: rest /\ 2 ^ 31 <= c.
Lemma size_32_32_signed lax src limit : units 32 src -> 0 <= limit ->
  exists z r, size_32_32 true lax true src limit = Some z /\ transcode_32_32 lax true src limit = Some r /\
    (z = size_of r <-> ~ stopped_at_top r).
Proof.
  intros HU HL. unfold size_32_32, transcode_32_32, transcode. cbn [negb].
  assert (forall ov, (forall size, ov size 1 limit = (limit <? size + 1)) ->
    forall fuel src size, (length src < fuel)%nat -> units 32 src ->
    exists z r, sz_loop (zstep_32_32 true (negb lax)) ov fuel src size limit = Some z /\
      tc_loop (step_32_32 lax) repl32 true fuel src (limit - size) = Some r /\
      (z = size_from size r <-> ~ stopped_at_top r)) as HG.
  { intros ov Hov fuel. clear src HU. induction fuel as [|fuel IH]; intros src size HL' HU; [lia|].
    cbn [sz_loop tc_loop]. destruct src as [|c rest].
    { do 2 eexists. split; [reflexivity|]. split; [reflexivity|]. unfold size_from, stopped_at_top; cbn. split; [|intros _; f_equal; lia].
      intros _ [[=] _]. }
    cbn [length] in HL'. inversion HU as [|? ? Hc HU']; subst.
    assert (Hz : as_src_char true c = if c <? 2 ^ 31 then c else c - 2 ^ 32).
    { unfold as_src_char, to_i. change (2 ^ (32 - 1)) with (2 ^ 31). destruct (Z.ltb_spec c (2 ^ 31)).
      - rewrite Z.mod_small; [lia|]. clear - Hc H. lia.
      - rewrite <- (Z_mod_plus_full (c + 2 ^ 31) (-1) (2 ^ 32)), Z.mod_small; [lia|]. clear - Hc H. lia. }
    assert (forall Q : Prop, Q <-> ~ stopped_at_top (mk_tc (c :: rest) [] Insufficient []) -> Q) as Hins.
    { intros Q [_ Q1]. apply Q1. intros [[=] _]. }
    assert (Hb : zstep_32_32 true (negb lax) c rest = if c <? 2 ^ 31 then
        match step_32_32 lax c rest with SGood _ _ => ZGood 1 0 | SBad _ => ZBad end else ZGood 1 0).
    { unfold zstep_32_32, step_32_32. rewrite Hz. destruct (Z.ltb_spec c (2 ^ 31)) as [Hlt|Hge].
      - destruct lax; cbn [negb andb orb]; rewrite ?orb_false_r; bdestr; reflexivity.
      - replace (0x110000 <=? c - 2 ^ 32) with false by lia.
        assert (is_surrogate c = false) as ->; [|rewrite andb_false_r; reflexivity].
        rewrite is_surrogate_spec. unfold is_surr. lia. }
    rewrite Hb. clear Hb Hz Hins.
    assert (Hs : 2 ^ 31 <= c -> step_32_32 lax c rest = SBad 0).
    { intros Hge. unfold step_32_32. replace (0x110000 <=? c) with true by lia. destruct lax; reflexivity. }
    destruct (Z.ltb_spec c (2 ^ 31)) as [Hlt|Hge].
    - destruct (step_32_32_cases lax c rest) as [[o ->] | ->].
      + rewrite Hov. change (zlen [o]) with 1. replace (limit - size <? 1) with (limit <? size + 1) by lia.
        destruct (limit <? size + 1).
        * do 2 eexists. split; [reflexivity|]. split; [reflexivity|]. unfold size_from, stopped_at_top; cbn [t_out t_rest t_reason].
          rewrite zlen_nil, Z.add_0_r. split; [intros _ [[=] _]|reflexivity].
        * cbn [skipn]. destruct (IH rest (size + 1) ltac:(lia) HU') as (z & r & -> & Hr & Hi).
          replace (limit - size - 1) with (limit - (size + 1)) by lia. rewrite Hr. cbn [obind].
          do 2 eexists. split; [reflexivity|]. split; [reflexivity|].
          unfold size_from, stopped_at_top in *; cbn [t_out t_rest t_reason]. rewrite zlen_app. change (zlen [o]) with 1.
          rewrite Z.add_assoc. exact Hi.
      + do 2 eexists. split; [reflexivity|]. split; [reflexivity|]. unfold size_from, stopped_at_top; cbn [t_out t_rest t_reason].
        rewrite zlen_nil, Z.add_0_r. split; [|reflexivity]. intros _ (_ & c' & rest' & [= <- <-] & H). lia.
    - rewrite (Hs Hge). 
      assert (exists z, (if ov size 1 limit then Some (mk_sz size (c :: rest) Insufficient)
         else sz_loop (zstep_32_32 true (negb lax)) ov fuel (skipn 0 rest) (size + 1) limit) = Some z /\
         (s_reason z = Insufficient \/ (length (s_rest z) <= length rest)%nat)) as (z & Hz & Hd).
      { destruct (ov size 1 limit); [eexists; split; [reflexivity|left; reflexivity]|]. cbn [skipn].
        destruct (IH rest (size + 1) ltac:(lia) HU') as (z & r & Hz & _). exists z. split; [exact Hz|].
        right. eapply sz_loop_rest; eauto. }
      exists z. eexists. split; [exact Hz|]. split; [reflexivity|]. unfold size_from; cbn [t_out t_rest t_reason]. split.
      * intros ->. cbn [s_reason s_rest length] in Hd. destruct Hd as [[=]|Hd]; lia.
      * intros H. elim H. split; [reflexivity|]. exists c, rest. split; [reflexivity|exact Hge]. }
  destruct (Z.leb_spec (zlen src) limit).
  - rewrite (sz_no_limit _ 1); [|lia| |lia].
    + destruct (HG over_gt ltac:(intros; reflexivity) (S (length src)) src 0 ltac:(lia) HU) as (z & r & Hz & Hr & Hi).
      exists z, r. rewrite Z.sub_0_r in Hr. split; [exact Hz|]. split; [exact Hr|exact Hi].
    + intros c rest n k. unfold zstep_32_32. bdestr; intros [=]; subst; lia.
  - destruct (HG over_pre ltac:(intros; unfold over_pre; lia) (S (length src)) src 0 ltac:(lia) HU) as (z & r & Hz & Hr & Hi).
    exists z, r. rewrite Z.sub_0_r in Hr. split; [exact Hz|]. split; [exact Hr|exact Hi].
Qed.
