(* On valid text the unsafe functions give what the checked ones give. *)
From Verif Require Import Base UtfSpec UtfModel UtfBits UtfDecode UtfLoop UtfSizeModel UtfSizeProofs.

Lemma all_good its : existsb is_bad its = false -> exists cps, its = map Good cps.
Proof.
  induction its as [|it its IH]; cbn; intros H; [exists []; reflexivity|].
  apply orb_false_iff in H as [H1 H2]. destruct it as [cp|]; [|discriminate].
  destruct (IH H2) as [cps ->]. exists (cp :: cps). reflexivity.
Qed.

Lemma srcs_of_good enc cps : srcs_of enc (map Good cps) = encode enc cps.
Proof. unfold srcs_of, encode. induction cps; cbn; [reflexivity|]. now rewrite IHcps. Qed.

Definition longest (enc : Z -> list Z) (lax : bool) (cp : Z) (rest : list Z) : Prop :=
  forall cp', valid_cp lax cp' -> is_prefix (enc cp') (enc cp ++ rest) ->
              (length (enc cp') <= length (enc cp))%nat.

Section Good.
  Variables (src_enc dst_enc : Z -> list Z) (bits : Z) (lax : bool).
  Hypothesis Henc : enc_ok src_enc bits lax.

  (* Proof-internal: transcoding a list of code points. *)
  Fixpoint gtc (cps : list Z) (space : Z) : tc_result :=
    match cps with
    | [] => mk_tc [] [] Completed []
    | cp :: r =>
        if space <? zlen (dst_enc cp) then mk_tc (encode src_enc cps) [] Insufficient []
        else let x := gtc r (space - zlen (dst_enc cp)) in
             mk_tc (t_rest x) (dst_enc cp ++ t_out x) (t_reason x) (t_notes x)
    end.

  Definition gitems (cps : list Z) : Prop := items src_enc lax (encode src_enc cps) (map Good cps).

  Lemma gitems_cons cp cps : gitems (cp :: cps) ->
    valid_cp lax cp /\ longest src_enc lax cp (encode src_enc cps) /\ gitems cps.
  Proof.
    unfold gitems. cbn [map]. intros H.
    remember (encode src_enc (cp :: cps)) as l eqn:El. remember (Good cp :: map Good cps) as its eqn:Ei.
    destruct H as [|cp' rest its' HV HL HI|]; [discriminate Ei| |discriminate Ei].
    injection Ei as -> ->. cbn in El. apply app_inv_head in El. subst rest. auto.
  Qed.

  Variable step : Z -> list Z -> sres.
  Hypothesis Hstep : step_ok src_enc dst_enc bits lax step.

  Lemma tc_gtc repl stop fuel : forall cps space, gitems cps ->
    (length (encode src_enc cps) < fuel)%nat -> units bits (encode src_enc cps) ->
    tc_loop step repl stop fuel (encode src_enc cps) space = Some (gtc cps space).
  Proof.
    induction fuel as [|fuel IH]; intros cps space HG Hf HU; [lia|].
    destruct cps as [|cp cps]; [reflexivity|].
    pose proof (gitems_cons _ _ HG) as (HV & HL & HG').
    cbn [gtc].
    destruct (encode src_enc (cp :: cps)) as [|c rest] eqn:Ee.
    { cbn in Ee. apply app_eq_nil in Ee as [E _]. pose proof (enc_pos _ _ _ Henc cp HV) as HP.
      rewrite E in HP; cbn in HP; lia. }
    cbn [tc_loop].
    pose proof (step_item src_enc dst_enc bits lax step Hstep c rest HU) as HS.
    assert (units bits rest) as HU' by (apply units_cons in HU as [_ HU]; exact HU).
    destruct (items_exist src_enc dst_enc bits lax step Hstep) with (src := rest) as [its0 _]; [exact HU'|].
    destruct (step c rest) as [out k|k].
    - destruct HS as (cp' & -> & HV' & HE & HC).
      destruct (items_exist src_enc dst_enc bits lax step Hstep (skipn k rest)) as [its1 HI1];
        [apply skipn_units; exact HU'|].
      specialize (HC its1 HI1).
      assert (Good cp' :: its1 = map Good (cp :: cps)) as HX.
      { eapply (items_det src_enc dst_enc bits lax Henc); [exact HC|]. rewrite <- Ee. exact HG. }
      injection HX as -> ->.
      assert (skipn k rest = encode src_enc cps) as HK.
      { cbn in Ee. rewrite HE in Ee. apply app_inv_head in Ee. symmetry. exact Ee. }
      destruct (space <? zlen (dst_enc cp)); [reflexivity|].
      rewrite HK. rewrite IH; [reflexivity|exact HG'| |].
      + rewrite <- HK, skipn_length. cbn in Hf. lia.
      + rewrite <- HK. apply skipn_units; exact HU'.
    - destruct HS as (_ & _ & HC).
      destruct (items_exist src_enc dst_enc bits lax step Hstep (skipn k rest)) as [its1 HI1];
        [apply skipn_units; exact HU'|].
      specialize (HC its1 HI1).
      assert (Bad (c :: firstn k rest) :: its1 = map Good (cp :: cps)) as HX.
      { eapply (items_det src_enc dst_enc bits lax Henc); [exact HC|]. rewrite <- Ee. exact HG. }
      discriminate HX.
  Qed.
End Good.

(* What the unsafe step functions must do on a well-formed sequence. *)
Definition ustep_ok (src_enc dst_enc : Z -> list Z) (lax : bool)
    (ustep : Z -> list Z -> option (list Z * nat)) (req : Z -> list Z -> Z) : Prop :=
  forall cp rest, valid_cp lax cp -> longest src_enc lax cp rest ->
    exists c t, src_enc cp = c :: t /\ ustep c (t ++ rest) = Some (dst_enc cp, length t) /\
      req c (dst_enc cp) = zlen (dst_enc cp).

Definition uszstep_ok (src_enc dst_enc : Z -> list Z) (lax : bool)
    (ustep : Z -> list Z -> Z * nat) : Prop :=
  forall cp rest, valid_cp lax cp -> longest src_enc lax cp rest ->
    exists c t, src_enc cp = c :: t /\ ustep c (t ++ rest) = (zlen (dst_enc cp), S (length t)).

Lemma skipn_len_app {A} (l r : list A) : skipn (length l) (l ++ r) = r.
Proof. rewrite skipn_app, skipn_all, Nat.sub_diag. reflexivity. Qed.

Lemma utc_gtc src_enc dst_enc lax ustep req : ustep_ok src_enc dst_enc lax ustep req ->
  forall fuel cps space, gitems src_enc lax cps -> (length (encode src_enc cps) < fuel)%nat ->
  utc_loop ustep req fuel (encode src_enc cps) space = Some (gtc src_enc dst_enc cps space).
Proof.
  intros HS. induction fuel as [|fuel IH]; intros cps space HG Hf; [lia|].
  destruct cps as [|cp cps]; [reflexivity|].
  destruct (gitems_cons _ _ _ _ HG) as (HV & HL & HG').
  destruct (HS _ _ HV HL) as (c & t & He & Hu & Hr). cbn [gtc].
  assert (encode src_enc (cp :: cps) = c :: (t ++ encode src_enc cps)) as Ee by (cbn; rewrite He; reflexivity).
  rewrite Ee in Hf |- *. cbn [utc_loop length] in *. rewrite Hu. cbn [obind]. rewrite Hr.
  destruct (space <? zlen (dst_enc cp)); [reflexivity|].
  rewrite skipn_len_app. rewrite IH; [reflexivity|exact HG'|]. rewrite app_length in Hf. lia.
Qed.

Lemma usz_gtc src_enc dst_enc lax ustep : uszstep_ok src_enc dst_enc lax ustep ->
  forall fuel cps size limit, gitems src_enc lax cps -> (length (encode src_enc cps) < fuel)%nat ->
  usz_loop ustep fuel (encode src_enc cps) size limit =
  Some (size_from size (gtc src_enc dst_enc cps (limit - size))).
Proof.
  intros HS. induction fuel as [|fuel IH]; intros cps size limit HG Hf; [lia|].
  destruct cps as [|cp cps].
  { cbn. unfold size_from; cbn. rewrite Z.add_0_r. reflexivity. }
  destruct (gitems_cons _ _ _ _ HG) as (HV & HL & HG').
  destruct (HS _ _ HV HL) as (c & t & He & Hu). cbn [gtc].
  assert (encode src_enc (cp :: cps) = c :: (t ++ encode src_enc cps)) as Ee by (cbn; rewrite He; reflexivity).
  rewrite Ee in Hf |- *. cbn [usz_loop length] in *. rewrite Hu. 
  replace (limit - size <? zlen (dst_enc cp)) with (limit <? size + zlen (dst_enc cp)) by lia.
  destruct (limit <? size + zlen (dst_enc cp)).
  { unfold size_from; cbn. rewrite Z.add_0_r. reflexivity. }
  replace (S (length t) <=? S (length (t ++ encode src_enc cps)))%nat with true
    by (rewrite app_length; symmetry; apply Nat.leb_le; lia).
  cbn [skipn]. rewrite skipn_len_app. rewrite app_length in Hf. rewrite IH; [|exact HG'|lia].
  replace (limit - (size + zlen (dst_enc cp))) with (limit - size - zlen (dst_enc cp)) by lia.
  unfold size_from; cbn [t_rest t_out t_reason]. rewrite zlen_app. do 2 f_equal. lia.
Qed.

(* ------------------------------------------------------------------ *)
(* The six decoding unsafe_transcode functions. *)

Ltac u8 V := shape V; do 2 eexists; (split; [eassumption|]); rng; cbn [app].

Lemma dec2_val b0 b1 : 0xC2 <= b0 <= 0xDF -> 0x80 <= b1 <= 0xBF ->
  utf8_decode2 b0 b1 = (b0 - 0xC0) * 64 + (b1 - 0x80).
Proof. intros; rewrite utf8_decode2_spec; lia. Qed.
Lemma dec3_val b0 b1 b2 : 0xE0 <= b0 <= 0xEF -> 0x80 <= b1 <= 0xBF -> 0x80 <= b2 <= 0xBF ->
  utf8_decode3 b0 b1 b2 = (b0 - 0xE0) * 4096 + (b1 - 0x80) * 64 + (b2 - 0x80).
Proof. intros; rewrite utf8_decode3_spec; lia. Qed.
Lemma dec4_val b0 b1 b2 b3 : 0xF0 <= b0 <= 0xF4 -> 0x80 <= b1 <= 0xBF -> 0x80 <= b2 <= 0xBF ->
  0x80 <= b3 <= 0xBF ->
  utf8_decode4 b0 b1 b2 b3 = (b0 - 0xF0) * 262144 + (b1 - 0x80) * 4096 + (b2 - 0x80) * 64 + (b3 - 0x80).
Proof. intros; rewrite utf8_decode4_spec; lia. Qed.

Lemma ustep_8_32_ok lax : ustep_ok enc8 enc32 lax ustep_8_32 req_len.
Proof.
  intros cp rest V _. pose proof V as [Hr _]. u8 V; (split; [|reflexivity]); unfold ustep_8_32, enc32; ltf.
  - rewrite c32_id by lia. subst; reflexivity.
  - rewrite dec2_val by lia. rewrite <- Hcp, c32_id by lia. reflexivity.
  - rewrite dec3_val by lia. rewrite <- Hcp, c32_id by lia. reflexivity.
  - rewrite dec4_val by lia. rewrite <- Hcp, c32_id by lia. reflexivity.
Qed.

Lemma ustep_8_16_ok lax : ustep_ok enc8 enc16 lax ustep_8_16 req_len.
Proof.
  intros cp rest V _. pose proof V as [Hr _]. u8 V; (split; [|reflexivity]); unfold ustep_8_16; ltf.
  - rewrite enc16_1, c16_id by lia. subst; reflexivity.
  - rewrite dec2_val by lia. rewrite <- Hcp, enc16_1, c16_id by lia. reflexivity.
  - rewrite dec3_val by lia. rewrite <- Hcp, enc16_1, c16_id by lia. reflexivity.
  - rewrite dec4_val by lia. rewrite <- Hcp. rewrite enc16_2 by lia.
    rewrite to_u_id by (change (2 ^ 32) with 4294967296; lia).
    rewrite shr, land_3FF by lia. change (2 ^ 10) with 1024. rewrite !c16_id by lia. reflexivity.
Qed.

Lemma longest16 cp rest c2 r lax : valid_cp lax cp -> longest enc16 lax cp rest -> rest = c2 :: r ->
  enc16 cp = [cp] -> highb cp && lowb c2 = false.
Proof.
  intros V HL -> He. destruct (highb cp && lowb c2) eqn:E; [|reflexivity]. exfalso.
  apply andb_prop in E as [E1 E2].
  specialize (HL (0x10000 + (cp - 0xD800) * 1024 + (c2 - 0xDC00))).
  rewrite (enc16_pair cp c2 E1 E2), He in HL.
  assert (2 <= 1)%nat; [|lia]. apply HL.
  - unfold highb, lowb in *. bsimp. split; [lia|]. right. unfold is_surr. lia.
  - exists r. reflexivity.
Qed.

Lemma ustep_16_32_ok lax : ustep_ok enc16 enc32 lax (ustep_16_32 lax) req_len.
Proof.
  intros cp rest V HL. pose proof V as [Hr Hs].
  destruct (enc16_shape _ _ V) as [[He Hc]|(c & c2 & He & Hh & Hl & Hc)]; do 2 eexists;
    (split; [eassumption|]); (split; [|reflexivity]); unfold ustep_16_32, enc32; hl; cbn [app length].
  - destruct lax; cbn [negb].
    + destruct rest as [|c2 r]; [rewrite c32_id by lia; reflexivity|]. hl.
      rewrite (longest16 cp _ c2 r true V HL eq_refl He). rewrite c32_id by lia; reflexivity.
    + destruct Hs as [[=]|Hs]. destruct (highb cp) eqn:E; [apply high_surr in E; congruence|].
      rewrite c32_id by lia; reflexivity.
  - hl. rewrite Hh, Hl. cbn [andb]. rewrite join_pair by assumption. rewrite <- Hc, c32_id by lia.
    destruct lax; reflexivity.
Qed.

Lemma ustep_16_8_ok lax : ustep_ok enc16 enc8 lax (ustep_16_8 lax) req_len.
Proof.
  intros cp rest V HL. pose proof V as [Hr Hs].
  destruct (enc16_shape _ _ V) as [[He Hc]|(c & c2 & He & Hh & Hl & Hc)]; do 2 eexists;
    (split; [eassumption|]); (split; [|reflexivity]); unfold ustep_16_8; hl; cbn [app length].
  - destruct (Z.ltb_spec cp 0x80). { rewrite c8_id, enc8_1 by lia. reflexivity. }
    destruct (Z.ltb_spec cp 0x800). { rewrite bytes2_spec, enc8_2 by lia. reflexivity. }
    destruct lax.
    + destruct rest as [|c2 r]; [rewrite bytes3_spec, enc8_3 by lia; reflexivity|]. hl.
      rewrite <- negb_andb.
      rewrite (longest16 cp _ c2 r true V HL eq_refl He). rewrite bytes3_spec, enc8_3 by lia; reflexivity.
    + destruct Hs as [[=]|Hs]. destruct (highb cp) eqn:E; [apply high_surr in E; congruence|].
      rewrite bytes3_spec, enc8_3 by lia; reflexivity.
  - hl. rewrite Hh, Hl. cbn [negb orb]. rewrite join_pair by assumption. rewrite <- Hc.
    rewrite bytes4_spec by lia. unfold highb, lowb in *; bsimp. ltf.
    rewrite enc8_4 by lia. destruct lax; reflexivity.
Qed.

Lemma ustep_32_8_ok lax : ustep_ok enc32 enc8 lax ustep_32_8 req_32_8.
Proof.
  intros cp rest [Hr _] _. do 2 eexists; split; [reflexivity|]. cbn [app length].
  unfold ustep_32_8, req_32_8.
  destruct (Z.ltb_spec cp 0x80). { rewrite c8_id, enc8_1 by lia. split; reflexivity. }
  destruct (Z.ltb_spec cp 0x800). { rewrite bytes2_spec, enc8_2 by lia. split; reflexivity. }
  destruct (Z.ltb_spec cp 0x10000). { rewrite bytes3_spec, enc8_3 by lia. split; reflexivity. }
  ltf. rewrite bytes4_spec, enc8_4 by lia. split; reflexivity.
Qed.

Lemma ustep_32_16_ok lax : ustep_ok enc32 enc16 lax ustep_32_16 req_len.
Proof.
  intros cp rest [Hr _] _. do 2 eexists; split; [reflexivity|]. cbn [app length].
  split; [|reflexivity]. unfold ustep_32_16.
  destruct (Z.ltb_spec cp 0x10000). { rewrite c16_id, enc16_1 by lia. reflexivity. }
  rewrite shr, land_3FF by lia. change (2 ^ 10) with 1024.
  rewrite lor_D800, lor_DC00 by lia. rewrite !c16_id, enc16_2 by lia. reflexivity.
Qed.

(* unsafe_transcode agrees with transcode on every text without ill-formed sequence. *)
Definition unsafe_matches (src_enc : Z -> list Z) (bits : Z)
    (tc : bool -> bool -> list Z -> Z -> option tc_result)
    (utc : bool -> list Z -> Z -> option tc_result) : Prop :=
  forall lax stop src its space, units bits src -> 0 <= space ->
    items src_enc lax src its -> existsb is_bad its = false ->
    utc lax src space = tc lax stop src space.

Lemma utc_matches src_enc dst_enc bits step repl ustep req :
  (forall lax, enc_ok src_enc bits lax) ->
  (forall lax, step_ok src_enc dst_enc bits lax (step lax)) ->
  (forall lax, ustep_ok src_enc dst_enc lax (ustep lax) req) ->
  unsafe_matches src_enc bits (transcode step repl)
    (fun lax src space => utc_loop (ustep lax) req (S (length src)) src space).
Proof.
  intros He Hs Hu lax stop src its space HU Hsp HI HB.
  apply all_good in HB as [cps ->]. pose proof (items_src _ _ _ _ HI) as Hsrc.
  rewrite srcs_of_good in Hsrc. subst src. unfold transcode.
  erewrite utc_gtc by (auto using Nat.lt_succ_diag_r; exact HI). symmetry.
  apply (tc_gtc src_enc dst_enc bits lax); auto.
Qed.

Lemma unsafe_8_32_ok : unsafe_matches enc8 8 transcode_8_32 unsafe_8_32.
Proof. apply (utc_matches enc8 enc32 8 step_8_32 repl32 (fun _ => ustep_8_32) req_len); auto using enc8_enc_ok, step_8_32_ok, ustep_8_32_ok. Qed.
Lemma unsafe_8_16_ok : unsafe_matches enc8 8 transcode_8_16 unsafe_8_16.
Proof. apply (utc_matches enc8 enc16 8 step_8_16 repl16 (fun _ => ustep_8_16) req_len); auto using enc8_enc_ok, step_8_16_ok, ustep_8_16_ok. Qed.
Lemma unsafe_16_32_ok : unsafe_matches enc16 16 transcode_16_32 unsafe_16_32.
Proof. apply (utc_matches enc16 enc32 16 step_16_32 repl32 ustep_16_32 req_len); auto using enc16_enc_ok, step_16_32_ok, ustep_16_32_ok. Qed.
Lemma unsafe_16_8_ok : unsafe_matches enc16 16 transcode_16_8 unsafe_16_8.
Proof. apply (utc_matches enc16 enc8 16 step_16_8 repl8 ustep_16_8 req_len); auto using enc16_enc_ok, step_16_8_ok, ustep_16_8_ok. Qed.
Lemma unsafe_32_8_ok : unsafe_matches enc32 32 transcode_32_8 unsafe_32_8.
Proof. apply (utc_matches enc32 enc8 32 step_32_8 repl8 (fun _ => ustep_32_8) req_32_8); auto using enc32_enc_ok, step_32_8_ok, ustep_32_8_ok. Qed.
Lemma unsafe_32_16_ok : unsafe_matches enc32 32 transcode_32_16 unsafe_32_16.
Proof. apply (utc_matches enc32 enc16 32 step_32_16 repl16 (fun _ => ustep_32_16) req_len); auto using enc32_enc_ok, step_32_16_ok, ustep_32_16_ok. Qed.

(* ------------------------------------------------------------------ *)
(* The three copying unsafe_transcode functions. *)

Lemma lead_not_cont lax cp r : valid_cp lax cp -> is_cont (nth 0 (enc8 cp ++ r) 0) = false.
Proof.
  intros V. shape V; rewrite He; cbn [app nth]; rewrite is_cont_spec by lia; unfold cont; lia.
Qed.

Lemma enc8_tail_cont lax cp r i : valid_cp lax cp -> (0 < i < length (enc8 cp))%nat ->
  is_cont (nth i (enc8 cp ++ r) 0) = true.
Proof.
  intros V Hi. shape V; rng; rewrite He in *; cbn [length app] in *;
    destruct i as [|[|[|[|i]]]]; try lia; cbn [nth]; rewrite is_cont_spec by lia; unfold cont; lia.
Qed.

Lemma back_up_zero src m : (forall i, (0 < i <= m)%nat -> is_cont (nth i src 0) = true) -> back_up src m = O.
Proof.
  induction m as [|m IH]; intros H; [reflexivity|]. cbn [back_up]. rewrite H by lia. apply IH.
  intros i Hi. apply H; lia.
Qed.

Lemma back_up_app e r m : e <> [] -> is_cont (nth 0 r 0) = false ->
  back_up (e ++ r) (length e + m) = (length e + back_up r m)%nat.
Proof.
  intros He Hr. induction m as [|m IH].
  - rewrite Nat.add_0_r. cbn [back_up]. rewrite Nat.add_0_r.
    destruct e as [|x e]; [congruence|]. cbn [length back_up app].
    change (x :: e ++ r) with ((x :: e) ++ r).
    rewrite app_nth2 by (cbn; lia). cbn [length]. rewrite Nat.sub_diag, Hr. reflexivity.
  - rewrite Nat.add_succ_r. cbn [back_up]. rewrite app_nth2 by lia.
    replace (S (length e + m) - length e)%nat with (S m) by lia.
    destruct (is_cont (nth (S m) r 0)); [exact IH|lia].
Qed.

Lemma back_up_le src m : (back_up src m <= m)%nat.
Proof. induction m; cbn; [lia|]. destruct (is_cont _); lia. Qed.

Lemma first_not_cont lax cps : Forall (valid_cp lax) cps -> is_cont (nth 0 (encode enc8 cps) 0) = false.
Proof. intros H. destruct H as [|cp cps HV]; [reflexivity|]. apply (lead_not_cont lax); assumption. Qed.

Lemma gitems_Forall enc lax cps : gitems enc lax cps -> Forall (valid_cp lax) cps.
Proof. induction cps; intros H; constructor; apply gitems_cons in H as (? & ? & ?); auto. Qed.

Lemma firstn_len_app {A} (l r : list A) n : firstn (length l + n) (l ++ r) = l ++ firstn n r.
Proof. rewrite firstn_app, firstn_all2 by lia. f_equal. f_equal. lia. Qed.
Lemma skipn_len_app2 {A} (l r : list A) n : skipn (length l + n) (l ++ r) = skipn n r.
Proof. rewrite skipn_app, skipn_all2 by lia. cbn. f_equal. lia. Qed.

Lemma unsafe_8_8_gtc lax cps : Forall (valid_cp lax) cps -> forall space, 0 <= space ->
  unsafe_8_8 lax (encode enc8 cps) space = Some (gtc enc8 enc8 cps space).
Proof.
  induction 1 as [|cp cps HV HF IH]; intros space Hs.
  { unfold unsafe_8_8. cbn. replace (0 <=? space) with true by lia. reflexivity. }
  cbn [gtc]. change (encode enc8 (cp :: cps)) with (enc8 cp ++ encode enc8 cps).
  unfold unsafe_8_8 in *. rewrite zlen_app. pose proof (zlen_nonneg (encode enc8 cps)).
  destruct (Z.ltb_spec space (zlen (enc8 cp))).
  - replace (zlen (enc8 cp) + _ <=? space) with false by lia.
    rewrite back_up_zero; [reflexivity|]. intros i Hi. apply (enc8_tail_cont lax); [exact HV|].
    unfold zlen in *. lia.
  - specialize (IH (space - zlen (enc8 cp)) ltac:(lia)).
    replace (zlen (enc8 cp) + zlen (encode enc8 cps) <=? space)
      with (zlen (encode enc8 cps) <=? space - zlen (enc8 cp)) by lia.
    destruct (zlen (encode enc8 cps) <=? space - zlen (enc8 cp)).
    + injection IH as <-. reflexivity.
    + injection IH as <-. cbn [t_rest t_out t_reason t_notes].
      replace (Z.to_nat space) with (length (enc8 cp) + Z.to_nat (space - zlen (enc8 cp)))%nat
        by (unfold zlen in *; lia).
      rewrite back_up_app; [|pose proof (enc8_pos cp); destruct (enc8 cp); cbn in *; [lia|discriminate]|
        apply (first_not_cont lax); exact HF].
      rewrite firstn_len_app, skipn_len_app2. reflexivity.
Qed.

Lemma valid_unsafe_matches enc bits step repl utc :
  (forall lax, enc_ok enc bits lax) -> (forall lax, step_ok enc enc bits lax (step lax)) ->
  (forall lax cps space, gitems enc lax cps -> 0 <= space ->
     utc lax (encode enc cps) space = Some (gtc enc enc cps space)) ->
  unsafe_matches enc bits (transcode step repl) utc.
Proof.
  intros He Hs Hu lax stop src its space HU Hsp HI HB.
  apply all_good in HB as [cps ->]. pose proof (items_src _ _ _ _ HI) as Hsrc.
  rewrite srcs_of_good in Hsrc. subst src. unfold transcode.
  rewrite Hu by assumption. symmetry. apply (tc_gtc enc enc bits lax); auto.
Qed.

Lemma unsafe_8_8_ok : unsafe_matches enc8 8 transcode_8_8 unsafe_8_8.
Proof.
  apply valid_unsafe_matches; auto using enc8_enc_ok, step_8_8_ok.
  intros. apply unsafe_8_8_gtc; [eapply gitems_Forall; eauto|assumption].
Qed.

(* utf16 *)
Definition cut16 (src : list Z) (space : Z) : nat :=
  let count := Z.to_nat space in
  if negb (space =? 0) && is_low_surrogate (nth count src 0)
     && is_high_surrogate (nth (count - 1) src 0) then (count - 1)%nat else count.

Lemma high_low_excl c : is_low_surrogate c = true -> is_high_surrogate c = false.
Proof. rewrite is_low_spec, is_high_spec. lia. Qed.

Lemma cut16_app lax cp cps space : valid_cp lax cp -> longest enc16 lax cp (encode enc16 cps) ->
  zlen (enc16 cp) <= space ->
  cut16 (enc16 cp ++ encode enc16 cps) space =
  (length (enc16 cp) + cut16 (encode enc16 cps) (space - zlen (enc16 cp)))%nat.
Proof.
  intros HV HL Hsp. set (r := encode enc16 cps) in *. unfold cut16.
  assert (0 < length (enc16 cp))%nat as HP by (destruct (enc16_enc_ok lax) as [H _]; auto).
  unfold zlen in *. replace (space =? 0) with false by lia. cbn [negb andb].
  rewrite (app_nth2 (enc16 cp)) by lia.
  replace (Z.to_nat space - length (enc16 cp))%nat with (Z.to_nat (space - Z.of_nat (length (enc16 cp)))) by lia.
  destruct (Z.eqb_spec (space - Z.of_nat (length (enc16 cp))) 0) as [E|E].
  - rewrite E. cbn [negb andb]. rewrite app_nth1 by lia.
    replace (Z.to_nat space - 1)%nat with (length (enc16 cp) - 1)%nat by lia.
    replace (is_low_surrogate (nth (Z.to_nat 0) r 0) && is_high_surrogate (nth (length (enc16 cp) - 1) (enc16 cp) 0))
      with false; [lia|symmetry].
    destruct (enc16_shape _ _ HV) as [[He Hc]|(c & c2 & He & Hh & Hl & Hc)]; rewrite He; cbn [length Nat.sub nth].
    + destruct r as [|c2 r'] eqn:Er; [reflexivity|]. cbn [Z.to_nat nth].
      pose proof (longest16 cp _ c2 r' lax HV HL eq_refl He) as HX.
      rewrite is_low_spec, is_high_spec. unfold highb, lowb in HX. lia.
    + replace (is_high_surrogate c2) with false; [apply andb_false_r|].
      rewrite is_high_spec. unfold lowb in Hl. lia.
  - rewrite (app_nth2 (enc16 cp)) by lia.
    replace (Z.to_nat space - 1 - length (enc16 cp))%nat
      with (Z.to_nat (space - Z.of_nat (length (enc16 cp))) - 1)%nat by lia.
    cbn [negb andb]. destruct (is_low_surrogate _ && is_high_surrogate _); lia.
Qed.

Lemma unsafe_16_16_gtc lax cps : gitems enc16 lax cps -> forall space, 0 <= space ->
  unsafe_16_16 lax (encode enc16 cps) space = Some (gtc enc16 enc16 cps space).
Proof.
  induction cps as [|cp cps IH]; intros HG space Hs.
  { unfold unsafe_16_16. cbn. replace (0 <=? space) with true by lia. reflexivity. }
  apply gitems_cons in HG as (HV & HL & HG). specialize (IH HG).
  cbn [gtc]. change (encode enc16 (cp :: cps)) with (enc16 cp ++ encode enc16 cps).
  unfold unsafe_16_16 in *. rewrite zlen_app. pose proof (zlen_nonneg (encode enc16 cps)).
  fold (cut16 (enc16 cp ++ encode enc16 cps) space).
  destruct (Z.ltb_spec space (zlen (enc16 cp))).
  - replace (zlen (enc16 cp) + _ <=? space) with false by lia.
    replace (cut16 _ _) with O; [reflexivity|]. symmetry. unfold cut16.
    destruct (enc16_shape _ _ HV) as [[He Hc]|(c & c2 & He & Hh & Hl & Hc)]; rewrite He in *;
      unfold zlen in *; cbn [length] in *.
    + replace space with 0 by lia. reflexivity.
    + destruct (Z.eq_dec space 0) as [->|]; [reflexivity|]. replace space with 1 by lia.
      change (Z.to_nat 1) with 1%nat. cbn [app nth Nat.sub]. hl. rewrite Hh, Hl. reflexivity.
  - specialize (IH (space - zlen (enc16 cp)) ltac:(lia)).
    replace (zlen (enc16 cp) + zlen (encode enc16 cps) <=? space)
      with (zlen (encode enc16 cps) <=? space - zlen (enc16 cp)) by lia.
    fold (cut16 (encode enc16 cps) (space - zlen (enc16 cp))) in IH.
    destruct (zlen (encode enc16 cps) <=? space - zlen (enc16 cp)).
    + injection IH as <-. reflexivity.
    + injection IH as <-. cbn [t_rest t_out t_reason t_notes].
      rewrite (cut16_app lax) by assumption.
      rewrite firstn_len_app, skipn_len_app2. reflexivity.
Qed.

Lemma unsafe_16_16_ok : unsafe_matches enc16 16 transcode_16_16 unsafe_16_16.
Proof.
  apply valid_unsafe_matches; auto using enc16_enc_ok, step_16_16_ok.
  intros. apply unsafe_16_16_gtc; assumption.
Qed.

Lemma encode32 cps : encode enc32 cps = cps.
Proof. unfold encode, enc32. induction cps; cbn; [reflexivity|]. f_equal; assumption. Qed.

Lemma unsafe_32_32_gtc lax cps : forall space, 0 <= space ->
  unsafe_32_32 lax (encode enc32 cps) space = Some (gtc enc32 enc32 cps space).
Proof.
  induction cps as [|cp cps IH]; intros space Hs.
  { unfold unsafe_32_32. cbn. replace (0 <=? space) with true by lia. reflexivity. }
  cbn [gtc]. unfold unsafe_32_32 in *. rewrite encode32 in *. change (zlen (enc32 cp)) with 1.
  rewrite zlen_cons. pose proof (zlen_nonneg cps).
  destruct (Z.ltb_spec space 1).
  - replace (1 + zlen cps <=? space) with false by lia. replace space with 0 by lia. reflexivity.
  - specialize (IH (space - 1) ltac:(lia)).
    replace (1 + zlen cps <=? space) with (zlen cps <=? space - 1) by lia.
    destruct (zlen cps <=? space - 1); injection IH as <-; [reflexivity|]. cbn [t_rest t_out t_reason t_notes].
    replace (Z.to_nat space) with (S (Z.to_nat (space - 1))) by lia. reflexivity.
Qed.

Lemma unsafe_32_32_ok : unsafe_matches enc32 32 transcode_32_32 unsafe_32_32.
Proof.
  apply valid_unsafe_matches; auto using enc32_enc_ok, step_32_32_ok.
  intros. apply unsafe_32_32_gtc; assumption.
Qed.

(* ------------------------------------------------------------------ *)
(* Unsafe sizes. *)
Definition unsafe_size_matches (src_enc : Z -> list Z) (bits : Z)
    (tc : bool -> bool -> list Z -> Z -> option tc_result)
    (usz : bool -> list Z -> Z -> option sz_result) : Prop :=
  forall lax stop src its limit, units bits src -> 0 <= limit ->
    items src_enc lax src its -> existsb is_bad its = false ->
    usz lax src limit = option_map size_of (tc lax stop src limit).

Lemma valid_usize_matches src_enc dst_enc bits step repl usz :
  (forall lax, enc_ok src_enc bits lax) -> (forall lax, step_ok src_enc dst_enc bits lax (step lax)) ->
  (forall lax cps limit, gitems src_enc lax cps -> units bits (encode src_enc cps) -> 0 <= limit ->
     usz lax (encode src_enc cps) limit = Some (size_of (gtc src_enc dst_enc cps limit))) ->
  unsafe_size_matches src_enc bits (transcode step repl) usz.
Proof.
  intros He Hs Hu lax stop src its space HU Hsp HI HB.
  apply all_good in HB as [cps ->]. pose proof (items_src _ _ _ _ HI) as Hsrc.
  rewrite srcs_of_good in Hsrc. subst src. unfold transcode.
  rewrite Hu by assumption. symmetry.
  rewrite (tc_gtc src_enc dst_enc bits lax); auto.
Qed.

Lemma size_of_from r : size_of r = size_from 0 r.
Proof. reflexivity. Qed.

Lemma usz_matches src_enc dst_enc bits step repl ustep :
  (forall lax, enc_ok src_enc bits lax) -> (forall lax, step_ok src_enc dst_enc bits lax (step lax)) ->
  (forall lax, uszstep_ok src_enc dst_enc lax (ustep lax)) ->
  unsafe_size_matches src_enc bits (transcode step repl)
    (fun lax src limit => usz_loop (ustep lax) (S (length src)) src 0 limit).
Proof.
  intros He Hs Hu. apply (valid_usize_matches src_enc dst_enc); auto.
  intros lax cps limit HG _ _. rewrite (usz_gtc src_enc dst_enc lax) by auto. rewrite Z.sub_0_r. reflexivity.
Qed.

Lemma uszstep_8_16_ok lax : uszstep_ok enc8 enc16 lax uszstep_8_16.
Proof.
  intros cp rest V _. pose proof V as [Hr _]. u8 V; unfold uszstep_8_16; ltf.
  - rewrite enc16_1 by lia. reflexivity.
  - rewrite enc16_1 by lia. reflexivity.
  - rewrite enc16_1 by lia. reflexivity.
  - rewrite enc16_2 by lia. reflexivity.
Qed.

Lemma unsafe_size_8_16_ok : unsafe_size_matches enc8 8 transcode_8_16 unsafe_size_8_16.
Proof. apply (usz_matches enc8 enc16 8 step_8_16 repl16 (fun _ => uszstep_8_16)); auto using enc8_enc_ok, step_8_16_ok, uszstep_8_16_ok. Qed.

Lemma uszstep_16_32_ok lax : uszstep_ok enc16 enc32 lax (uszstep_16_32 lax).
Proof.
  intros cp rest V HL. pose proof V as [Hr Hs].
  destruct (enc16_shape _ _ V) as [[He Hc]|(c & c2 & He & Hh & Hl & Hc)]; do 2 eexists;
    (split; [eassumption|]); unfold uszstep_16_32, enc32; hl; cbn [app length].
  - destruct lax; cbn [negb].
    + destruct rest as [|c2 r]; [reflexivity|]. hl.
      rewrite (longest16 cp _ c2 r true V HL eq_refl He). reflexivity.
    + destruct Hs as [[=]|Hs]. destruct (highb cp) eqn:E; [apply high_surr in E; congruence|reflexivity].
  - hl. rewrite Hh, Hl. destruct lax; reflexivity.
Qed.

Lemma unsafe_size_16_32_ok : unsafe_size_matches enc16 16 transcode_16_32 unsafe_size_16_32.
Proof. apply (usz_matches enc16 enc32 16 step_16_32 repl32 uszstep_16_32); auto using enc16_enc_ok, step_16_32_ok, uszstep_16_32_ok. Qed.

Lemma uszstep_16_8_ok : uszstep_ok enc16 enc8 false uszstep_16_8.
Proof.
  intros cp rest V HL. pose proof V as [Hr Hs].
  destruct (enc16_shape _ _ V) as [[He Hc]|(c & c2 & He & Hh & Hl & Hc)]; do 2 eexists;
    (split; [eassumption|]); unfold uszstep_16_8; hl; cbn [app length].
  - destruct (Z.ltb_spec cp 0x80). { rewrite enc8_1 by lia. reflexivity. }
    destruct (Z.ltb_spec cp 0x800). { rewrite enc8_2 by lia. reflexivity. }
    rewrite enc8_3 by lia.
    destruct Hs as [[=]|Hs]. destruct (highb cp) eqn:E; [apply high_surr in E; congruence|reflexivity].
  - rewrite Hh. unfold highb, lowb in *; bsimp. ltf. rewrite enc8_4 by lia. reflexivity.
Qed.

Lemma unsafe_size_16_8_ok : unsafe_size_matches enc16 16 transcode_16_8 unsafe_size_16_8.
Proof.
  apply (valid_usize_matches enc16 enc8); auto using enc16_enc_ok, step_16_8_ok.
  intros lax cps limit HG HU HL. unfold unsafe_size_16_8. destruct lax; cbn [negb].
  - rewrite (sz_loop_16_8_ok true false) by (auto; lia). rewrite Z.sub_0_r.
    rewrite (tc_gtc enc16 enc8 16 true); auto using enc16_enc_ok, step_16_8_ok.
  - rewrite (usz_gtc enc16 enc8 false) by auto using uszstep_16_8_ok. rewrite Z.sub_0_r. reflexivity.
Qed.

Lemma unsafe_size_copy enc cps limit n :
  gtc enc enc cps limit = mk_tc (skipn n (encode enc cps)) (firstn n (encode enc cps)) Insufficient [] ->
  (n <= length (encode enc cps))%nat ->
  size_of (gtc enc enc cps limit) = mk_sz (Z.of_nat n) (skipn n (encode enc cps)) Insufficient.
Proof.
  intros H HN. rewrite H. unfold size_of; cbn. f_equal. unfold zlen. rewrite firstn_length. lia.
Qed.

Lemma unsafe_size_8_8_ok : unsafe_size_matches enc8 8 transcode_8_8 unsafe_size_8_8.
Proof.
  apply (valid_usize_matches enc8 enc8); auto using enc8_enc_ok, step_8_8_ok.
  intros lax cps limit HG HU HL. pose proof (unsafe_8_8_gtc lax cps (gitems_Forall _ _ _ HG) limit HL) as H.
  unfold unsafe_8_8 in H. unfold unsafe_size_8_8. destruct (Z.leb_spec (zlen (encode enc8 cps)) limit).
  - injection H as <-. reflexivity.
  - injection H as H. symmetry in H. rewrite (unsafe_size_copy _ _ _ _ H); [reflexivity|].
    pose proof (back_up_le (encode enc8 cps) (Z.to_nat limit)). unfold zlen in *. lia.
Qed.

Lemma unsafe_size_16_16_ok : unsafe_size_matches enc16 16 transcode_16_16 unsafe_size_16_16.
Proof.
  apply (valid_usize_matches enc16 enc16); auto using enc16_enc_ok, step_16_16_ok.
  intros lax cps limit HG HU HL. pose proof (unsafe_16_16_gtc lax cps HG limit HL) as H.
  unfold unsafe_16_16 in H. unfold unsafe_size_16_16.
  destruct (Z.leb_spec (zlen (encode enc16 cps)) limit).
  - injection H as <-. reflexivity.
  - injection H as H. symmetry in H.
    replace (0 <? limit) with (negb (limit =? 0)) by lia.
    rewrite <- andb_assoc in H |- *.
    rewrite (andb_comm (is_high_surrogate _)).
    rewrite (unsafe_size_copy _ _ _ _ H); [reflexivity|].
    unfold zlen in *. bdestr; lia.
Qed.

Lemma unsafe_size_32_32_ok : unsafe_size_matches enc32 32 transcode_32_32 unsafe_size_32_32.
Proof.
  apply (valid_usize_matches enc32 enc32); auto using enc32_enc_ok, step_32_32_ok.
  intros lax cps limit HG HU HL. pose proof (unsafe_32_32_gtc lax cps limit HL) as H.
  unfold unsafe_32_32 in H. unfold unsafe_size_32_32.
  destruct (Z.leb_spec (zlen (encode enc32 cps)) limit).
  - injection H as <-. reflexivity.
  - injection H as H. symmetry in H. rewrite (unsafe_size_copy _ _ _ _ H); [|unfold zlen in *; lia].
    rewrite Z2Nat.id by lia. reflexivity.
Qed.

Lemma usz_32_8_val cp lax : valid_cp lax cp -> usz_32_8 cp = zlen (enc8 cp).
Proof. intros [Hr _]. unfold usz_32_8, enc8, zlen. bdestr; reflexivity. Qed.
Lemma usz_32_16_val cp lax : valid_cp lax cp -> usz_32_16 cp = zlen (enc16 cp).
Proof. intros [Hr _]. unfold usz_32_16, b2z, enc16, zlen. bdestr; bsimp; try lia; reflexivity. Qed.

Lemma usz_32_8_second_ok lax cps : Forall (valid_cp lax) cps -> forall size limit,
  usz_32_8_second (encode enc32 cps) size limit = size_from size (gtc enc32 enc8 cps (limit - size)).
Proof.
  induction 1 as [|cp cps HV HF IH]; intros size limit.
  { cbn. unfold size_from; cbn. rewrite Z.add_0_r. reflexivity. }
  rewrite encode32 in *. cbn [usz_32_8_second gtc]. rewrite (usz_32_8_val cp lax HV). rewrite encode32.
  replace (limit - size <? zlen (enc8 cp)) with (limit <? size + zlen (enc8 cp)) by lia.
  destruct (limit <? size + zlen (enc8 cp)).
  { unfold size_from; cbn. rewrite Z.add_0_r. reflexivity. }
  rewrite IH. replace (limit - (size + zlen (enc8 cp))) with (limit - size - zlen (enc8 cp)) by lia.
  unfold size_from; cbn. rewrite zlen_app. f_equal. lia.
Qed.

Lemma usz_32_8_first_ok src : forall size limit,
  usz_32_8_first src size (limit - 4) limit = usz_32_8_second src size limit.
Proof.
  induction src as [|c r IH]; intros size limit; cbn [usz_32_8_first usz_32_8_second].
  - destruct (size <? limit - 4); reflexivity.
  - destruct (Z.ltb_spec size (limit - 4)); [|reflexivity].
    rewrite IH. replace (limit <? size + usz_32_8 c) with false; [reflexivity|].
    unfold usz_32_8. bdestr; lia.
Qed.

Lemma unsafe_size_32_8_ok : unsafe_size_matches enc32 32 transcode_32_8 unsafe_size_32_8.
Proof.
  apply (valid_usize_matches enc32 enc8); auto using enc32_enc_ok, step_32_8_ok.
  intros lax cps limit HG HU HL. unfold unsafe_size_32_8.
  replace (if limit <=? 0 then 0 else limit) with limit by (destruct (Z.leb_spec limit 0); lia).
  rewrite usz_32_8_first_ok, (usz_32_8_second_ok lax) by (eapply gitems_Forall; eauto).
  rewrite Z.sub_0_r. reflexivity.
Qed.

Lemma usz_32_16_loop_ok lax cps : Forall (valid_cp lax) cps -> forall hl size limit,
  (hl = false -> size + 2 * zlen cps <= limit) ->
  usz_32_16_loop hl (encode enc32 cps) size limit = size_from size (gtc enc32 enc16 cps (limit - size)).
Proof.
  induction 1 as [|cp cps HV HF IH]; intros hl size limit Hh.
  { cbn. unfold size_from; cbn. rewrite Z.add_0_r. reflexivity. }
  rewrite encode32 in *. cbn [usz_32_16_loop gtc]. rewrite (usz_32_16_val cp lax HV). rewrite encode32.
  replace (limit - size <? zlen (enc16 cp)) with (limit <? size + zlen (enc16 cp)) by lia.
  assert (zlen (enc16 cp) <= 2) as H2 by (unfold enc16, zlen; bdestr; cbn; lia).
  rewrite zlen_cons in Hh. pose proof (zlen_nonneg cps).
  replace (hl && (limit <? size + zlen (enc16 cp))) with (limit <? size + zlen (enc16 cp))
    by (destruct hl; [reflexivity|specialize (Hh eq_refl); cbn [andb]; lia]).
  destruct (limit <? size + zlen (enc16 cp)) eqn:E.
  { unfold size_from; cbn. f_equal. lia. }
  rewrite IH by (intros E0; specialize (Hh E0); lia). replace (limit - (size + zlen (enc16 cp))) with (limit - size - zlen (enc16 cp)) by lia.
  unfold size_from; cbn. rewrite zlen_app. f_equal. lia.
Qed.

Lemma unsafe_size_32_16_ok : unsafe_size_matches enc32 32 transcode_32_16 unsafe_size_32_16.
Proof.
  apply (valid_usize_matches enc32 enc16); auto using enc32_enc_ok, step_32_16_ok.
  intros lax cps limit HG HU HL. unfold unsafe_size_32_16.
  rewrite (usz_32_16_loop_ok lax); [rewrite Z.sub_0_r; reflexivity|eapply gitems_Forall; eauto|].
  rewrite encode32. intros E. apply negb_false_iff in E. lia.
Qed.

(* utf8 -> utf32: the size is right, but a stop by the limit can be inside a
   sequence, and can be reported although everything was counted. *)
Lemma cont_count_tail cp lax r : valid_cp lax cp ->
  usz_8_32_count (enc8 cp ++ r) = 1 + usz_8_32_count r.
Proof.
  intros V. shape V; rng; rewrite He; cbn [app usz_8_32_count];
    rewrite !is_cont_spec by lia; unfold cont, b2z; ltf; cbn [negb]; lia.
Qed.
Lemma usz_count_enc lax cps : Forall (valid_cp lax) cps -> usz_8_32_count (encode enc8 cps) = zlen cps.
Proof.
  induction 1; [reflexivity|]. change (encode enc8 (x :: l)) with (enc8 x ++ encode enc8 l).
  rewrite (cont_count_tail x lax) by assumption. rewrite zlen_cons. lia.
Qed.

Lemma gtc_32_size src_enc cps : forall limit, 0 <= limit ->
  zlen (t_out (gtc src_enc enc32 cps limit)) = Z.min (zlen cps) limit.
Proof.
  induction cps as [|cp cps IH]; intros limit HL; cbn [gtc]; [cbn; lia|].
  change (zlen (enc32 cp)) with 1. rewrite zlen_cons. pose proof (zlen_nonneg cps).
  destruct (Z.ltb_spec limit 1); cbn [t_out]; [rewrite zlen_nil; lia|].
  rewrite zlen_app, IH by lia. change (zlen (enc32 cp)) with 1. lia.
Qed.
Lemma gtc_32_completed src_enc cps : forall limit, zlen cps <= limit ->
  t_reason (gtc src_enc enc32 cps limit) = Completed /\ t_rest (gtc src_enc enc32 cps limit) = [].
Proof.
  induction cps as [|cp cps IH]; intros limit HL; cbn [gtc]; [split; reflexivity|].
  rewrite zlen_cons in HL. pose proof (zlen_nonneg cps). change (zlen (enc32 cp)) with 1.
  replace (limit <? 1) with false by lia. cbn [t_reason t_rest]. apply IH. lia.
Qed.

Lemma usz_8_32_loop_size src : forall size limit, size <= limit ->
  s_size (usz_8_32_loop src size limit) = Z.min (size + usz_8_32_count src) limit.
Proof.
  induction src as [|c r IH]; intros size limit H; cbn [usz_8_32_loop usz_8_32_count]; [cbn; lia|].
  assert (0 <= usz_8_32_count r) as HN.
  { clear. induction r; cbn; [lia|]. unfold b2z; destruct (negb _); lia. }
  destruct (Z.leb_spec limit size); [cbn; unfold b2z; destruct (negb _); lia|].
  rewrite IH by (unfold b2z; destruct (negb _); lia). lia.
Qed.

Lemma zlen_cps_le lax cps : Forall (valid_cp lax) cps -> zlen cps <= zlen (encode enc8 cps).
Proof.
  induction 1; [reflexivity|]. change (encode enc8 (x :: l)) with (enc8 x ++ encode enc8 l).
  rewrite zlen_app, zlen_cons. pose proof (enc8_pos x). unfold zlen in *. lia.
Qed.

Lemma unsafe_size_8_32_partial_ok lax stop src its limit : units 8 src -> 0 <= limit ->
  items enc8 lax src its -> existsb is_bad its = false ->
  exists z r, unsafe_size_8_32 lax src limit = Some z /\ transcode_8_32 lax stop src limit = Some r /\
    s_size z = zlen (t_out r) /\ (zlen src <= limit -> z = size_of r).
Proof.
  intros HU HL HI HB. apply all_good in HB as [cps ->]. pose proof (items_src _ _ _ _ HI) as Hsrc.
  rewrite srcs_of_good in Hsrc. subst src. unfold transcode_8_32, transcode.
  pose proof (gitems_Forall enc8 lax cps HI) as HF.
  rewrite (tc_gtc enc8 enc32 8 lax); auto using enc8_enc_ok, step_8_32_ok.
  unfold unsafe_size_8_32.
  pose proof (gtc_32_size enc8 cps limit HL) as HS.
  pose proof (usz_count_enc lax cps HF) as HC.
  pose proof (zlen_cps_le lax cps HF).
  destruct (Z.leb_spec (zlen (encode enc8 cps)) limit); do 2 eexists; (split; [reflexivity|]); (split; [reflexivity|]).
  - cbn [s_size]. split; [lia|]. intros _. unfold size_of.
    destruct (gtc_32_completed enc8 cps limit) as [-> ->]; [lia|]. f_equal. lia.
  - rewrite usz_8_32_loop_size by lia. split; [lia|]. intros; lia.
Qed.

(* The exact result of the limited count on a valid text. *)
Lemma usz_loop_tail : forall t r size limit, Forall (fun c => is_cont c = true) t -> size < limit ->
  usz_8_32_loop (t ++ r) size limit = usz_8_32_loop r size limit.
Proof.
  induction t as [|c t IH]; intros r size limit HF H; [reflexivity|]. inversion HF as [|? ? Hc HF']; subst.
  cbn [app usz_8_32_loop]. replace (limit <=? size) with false by lia. rewrite Hc. cbn [negb b2z].
  rewrite Z.add_0_r. apply IH; auto.
Qed.
Lemma enc8_split cp lax : valid_cp lax cp ->
  exists c t, enc8 cp = c :: t /\ is_cont c = false /\ Forall (fun c => is_cont c = true) t /\ (t = [] <-> cp < 0x80).
Proof.
  intros V. shape V; rng; rewrite He; do 2 eexists; (split; [reflexivity|]);
    (split; [rewrite is_cont_spec by lia; unfold cont; lia|]);
    (split; [repeat (constructor; [rewrite is_cont_spec by lia; unfold cont; lia|]); constructor|]);
    split; intros; solve [lia|discriminate|reflexivity].
Qed.
Lemma usz_loop_enc lax : forall cps size limit, Forall (valid_cp lax) cps -> size < limit ->
  usz_8_32_loop (encode enc8 cps) size limit =
  match nth_error cps (Z.to_nat (limit - size - 1)) with
  | None => mk_sz (size + zlen cps) [] Completed
  | Some cp => let rest := tl (enc8 cp) ++ encode enc8 (skipn (Z.to_nat (limit - size)) cps) in
               mk_sz limit rest (match rest with [] => Completed | _ => Insufficient end)
  end.
Proof.
  induction cps as [|x l IH]; intros size limit HF H.
  { destruct (Z.to_nat _); cbn; rewrite Z.add_0_r; reflexivity. }
  inversion HF as [|? ? Hx HF']; subst. change (encode enc8 (x :: l)) with (enc8 x ++ encode enc8 l).
  destruct (enc8_split x lax Hx) as (c & t & He & Hc & Ht & _). rewrite He. cbn [app usz_8_32_loop].
  replace (limit <=? size) with false by lia. rewrite Hc. cbn [negb b2z].
  destruct (Z.eq_dec (size + 1) limit) as [E|E].
  - replace (Z.to_nat (limit - size - 1)) with 0%nat by lia. cbn [nth_error]. rewrite He. cbn [tl].
    replace (Z.to_nat (limit - size)) with 1%nat by lia. cbn [skipn].
    destruct (t ++ encode enc8 l); cbn [usz_8_32_loop]; [rewrite E; reflexivity|].
    replace (limit <=? size + 1) with true by lia. rewrite E. reflexivity.
  - rewrite usz_loop_tail by (auto; lia). rewrite IH by (auto; lia).
    replace (Z.to_nat (limit - size - 1)) with (S (Z.to_nat (limit - (size + 1) - 1))) by lia. cbn [nth_error].
    replace (Z.to_nat (limit - size)) with (S (Z.to_nat (limit - (size + 1)))) by lia. cbn [skipn].
    destruct (nth_error _ _); [reflexivity|]. rewrite zlen_cons. f_equal. lia.
Qed.
Lemma gtc_32_exact src_enc (Hne : forall cp, src_enc cp <> []) : forall cps limit, 0 <= limit ->
  size_of (gtc src_enc enc32 cps limit) =
  if zlen cps <=? limit then mk_sz (zlen cps) [] Completed
  else mk_sz limit (encode src_enc (skipn (Z.to_nat limit) cps)) Insufficient.
Proof.
  induction cps as [|cp cps IH]; intros limit HL; cbn [gtc].
  { rewrite zlen_nil. replace (0 <=? limit) with true by lia. reflexivity. }
  change (zlen (enc32 cp)) with 1. rewrite zlen_cons. pose proof (zlen_nonneg cps).
  destruct (Z.ltb_spec limit 1).
  - assert (limit = 0) as -> by lia. replace (1 + zlen cps <=? 0) with false by lia. reflexivity.
  - specialize (IH (limit - 1) ltac:(lia)). unfold size_of in *. cbn [t_out t_rest t_reason]. rewrite zlen_app.
    change (zlen (enc32 cp)) with 1. replace (zlen cps <=? limit - 1) with (1 + zlen cps <=? limit) in IH by lia.
    replace (Z.to_nat limit) with (S (Z.to_nat (limit - 1))) by lia. cbn [skipn].
    destruct (1 + zlen cps <=? limit); injection IH as E1 E2 E3; rewrite E1, E2, E3; f_equal; lia.
Qed.
Lemma unsafe_size_8_32_exact lax stop cps limit : gitems enc8 lax cps -> units 8 (encode enc8 cps) -> 0 <= limit ->
  exists z r, unsafe_size_8_32 lax (encode enc8 cps) limit = Some z /\
    transcode_8_32 lax stop (encode enc8 cps) limit = Some r /\
    (z = size_of r <->
     forall cp, 1 <= limit -> nth_error cps (Z.to_nat (limit - 1)) = Some cp -> cp < 0x80).
Proof.
  intros HI HU HL. unfold transcode_8_32, transcode. pose proof (gitems_Forall enc8 lax cps HI) as HF.
  rewrite (tc_gtc enc8 enc32 8 lax); auto using enc8_enc_ok, step_8_32_ok.
  unfold unsafe_size_8_32. pose proof (usz_count_enc lax cps HF) as HC. pose proof (zlen_cps_le lax cps HF) as HZ.
  assert (forall cp, enc8 cp <> []) as Hne.
  { intros cp E. pose proof (enc8_pos cp) as Hp. rewrite E in Hp. cbn in Hp. lia. }
  pose proof (gtc_32_exact enc8 Hne cps limit HL) as HG.
  assert (nth_error cps (Z.to_nat (limit - 1)) = None -> 1 <= limit -> zlen cps < limit) as HN.
  { intros E H1. apply nth_error_None in E. unfold zlen. lia. }
  assert (forall cp, nth_error cps (Z.to_nat (limit - 1)) = Some cp -> 1 <= limit -> limit <= zlen cps /\ valid_cp lax cp) as HS.
  { intros cp E H1. split.
    - assert (nth_error cps (Z.to_nat (limit - 1)) <> None) as N by congruence. apply nth_error_Some in N. unfold zlen. lia.
    - apply (proj1 (Forall_forall _ _) HF). eapply nth_error_In; eauto. }
  destruct (Z.leb_spec (zlen (encode enc8 cps)) limit) as [Hle|Hgt]; do 2 eexists;
    (split; [reflexivity|]); (split; [reflexivity|]); rewrite HG.
  - replace (zlen cps <=? limit) with true by lia. rewrite HC. split; [|intros _; reflexivity].
    intros _ cp H1 E. destruct (HS cp E H1) as [Hl V].
    assert (encode enc8 cps = encode enc8 (firstn (Z.to_nat (limit - 1)) cps) ++ enc8 cp ++ encode enc8 (skipn (Z.to_nat limit) cps)) as Hsplit.
    { rewrite <- (firstn_skipn (Z.to_nat (limit - 1)) cps) at 1. unfold encode. rewrite flat_map_app. f_equal.
      apply nth_error_split in E as (l1 & l2 & El & Hlen). rewrite El.
      replace (Z.to_nat limit) with (S (Z.to_nat (limit - 1))) by lia. rewrite <- Hlen.
      rewrite !skipn_app, skipn_all, Nat.sub_diag, (skipn_all2 l1 (n := S (length l1))) by lia.
      replace (S (length l1) - length l1)%nat with 1%nat by lia. reflexivity. }
    rewrite Hsplit, !zlen_app in Hle.
    assert (limit - 1 <= zlen (encode enc8 (firstn (Z.to_nat (limit - 1)) cps))).
    { assert (Forall (valid_cp lax) (firstn (Z.to_nat (limit - 1)) cps)) as HF1.
      { rewrite <- (firstn_skipn (Z.to_nat (limit - 1)) cps) in HF. apply Forall_app in HF as [HF1 _]. exact HF1. }
      pose proof (zlen_cps_le lax _ HF1) as H2. assert (zlen (firstn (Z.to_nat (limit - 1)) cps) = limit - 1) as E3.
      { unfold zlen in *. rewrite firstn_length. lia. } lia. }
    pose proof (zlen_nonneg (encode enc8 (skipn (Z.to_nat limit) cps))).
    destruct (enc8_split cp lax V) as (c & t & He & _ & _ & Ht). apply Ht. rewrite He, zlen_cons in Hle.
    destruct t; [reflexivity|]. rewrite zlen_cons in Hle. pose proof (zlen_nonneg t). lia.
  - destruct (Z.eq_dec limit 0) as [->|H0].
    { split; [intros _ cp H1; lia|]. intros _. destruct cps as [|x l]; [cbn in Hgt; lia|].
      rewrite zlen_cons. pose proof (zlen_nonneg l). replace (1 + zlen l <=? 0) with false by lia.
      change (Z.to_nat 0) with 0%nat. cbn [skipn].
      change (encode enc8 (x :: l)) with (enc8 x ++ encode enc8 l).
      destruct (enc8 x) eqn:E; [elim (Hne x E)|]. reflexivity. }
    rewrite (usz_loop_enc lax) by (auto; lia). rewrite Z.sub_0_r.
    destruct (nth_error cps (Z.to_nat (limit - 1))) as [cp|] eqn:E.
    + destruct (HS cp eq_refl ltac:(lia)) as [Hl V]. destruct (enc8_split cp lax V) as (c & t & He & _ & _ & Ht).
      rewrite He. cbn [tl]. split.
      * intros EQ cp' _ [= <-]. apply Ht. destruct (zlen cps <=? limit) eqn:El.
        -- injection EQ as _ Er _. apply app_eq_nil in Er. tauto.
        -- injection EQ as Er _. apply (app_inv_tail _ _ []) in Er. exact Er.
      * intros H. specialize (H cp ltac:(lia) eq_refl). apply Ht in H. rewrite H. cbn [app].
        destruct (Z.leb_spec (zlen cps) limit) as [Hl2|Hl2].
        -- rewrite skipn_all2 by (unfold zlen in *; lia). cbn. f_equal. lia.
        -- destruct (skipn (Z.to_nat limit) cps) as [|y ys] eqn:Ek.
           { apply (f_equal (@length Z)) in Ek. rewrite skipn_length in Ek. cbn in Ek. unfold zlen in *. lia. }
           change (encode enc8 (y :: ys)) with (enc8 y ++ encode enc8 ys). destruct (enc8 y) eqn:Ey; [elim (Hne y Ey)|]. reflexivity.
    + specialize (HN eq_refl ltac:(lia)). replace (zlen cps <=? limit) with true by lia.
      split; [intros _ cp _ [=]|]. intros _. f_equal.
Qed.
