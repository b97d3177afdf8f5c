(* Generic facts about the transcode loop: its result is the declarative one. *)
From Verif Require Import Base UtfSpec UtfModel UtfBits UtfDecode.

(* An encoding form: nonempty, injective and made of code units. *)
Record enc_ok (enc : Z -> list Z) (bits : Z) (lax : bool) : Prop := {
  enc_pos : forall cp, valid_cp lax cp -> (0 < length (enc cp))%nat;
  enc_inj : forall cp cp', valid_cp lax cp -> valid_cp lax cp' -> enc cp = enc cp' -> cp = cp' }.

Lemma enc8_enc_ok lax : enc_ok enc8 8 lax.
Proof.
  split; [intros; apply enc8_pos|]. intros cp cp' V V' H.
  apply (enc8_prefix_free lax cp cp' (enc8 cp)); auto using is_prefix_refl. rewrite H; apply is_prefix_refl.
Qed.
Lemma enc16_enc_ok lax : enc_ok enc16 16 lax.
Proof.
  split; intros cp; [intros _; unfold enc16; bdestr; cbn; lia|].
  intros cp' V V' H.
  destruct (enc16_shape _ _ V) as [[He Hr]|(d & d2 & He & Hd & Hd2 & Hc)],
    (enc16_shape _ _ V') as [[He' Hr']|(e & e2 & He' & He3 & He2 & Hc')]; rewrite He, He' in H; congruence.
Qed.
Lemma enc32_enc_ok lax : enc_ok enc32 32 lax.
Proof. split; intros cp; [cbn; lia|]. intros cp' _ _ [=]; assumption. Qed.

Lemma prefix_len_eq {A} (p q l : list A) : is_prefix p l -> is_prefix q l -> length p = length q -> p = q.
Proof.
  intros [r ->] [r' H] HL. apply (f_equal (firstn (length p))) in H.
  rewrite firstn_app, firstn_all, Nat.sub_diag, firstn_O, app_nil_r in H.
  rewrite HL, firstn_app, firstn_all, Nat.sub_diag, firstn_O, app_nil_r in H. exact H.
Qed.

Section Generic.
  Variables (src_enc dst_enc : Z -> list Z) (bits : Z) (lax : bool).
  Hypothesis Henc : enc_ok src_enc bits lax.

  Lemma items_det src its : items src_enc lax src its ->
    forall its', items src_enc lax src its' -> its = its'.
  Proof.
    induction 1 as [|cp rest its HV HL HI IH|bad rest its HU HM HI IH]; intros its' H'.
    - inversion H' as [E|cp' rest' its2 V' L' I' E E'|bad' rest' its2 U' M' I' E E']; [reflexivity| |].
      + pose proof (enc_pos _ _ _ Henc cp' V'). apply app_eq_nil in E as [E _]. rewrite E in *; cbn in *; lia.
      + apply app_eq_nil in E as [E _]. destruct M' as (_ & [|[? _]] & _); subst; cbn in *; congruence.
    - remember (src_enc cp ++ rest) as l eqn:El.
      destruct H' as [|cp' rest' its2 V' L' I'|bad' rest' its2 U' M' I'].
      + pose proof (enc_pos _ _ _ Henc cp HV). symmetry in El. apply app_eq_nil in El as [E _].
        rewrite E in *; cbn in *; lia.
      + assert (length (src_enc cp) = length (src_enc cp')) as HLe.
        { apply Nat.le_antisymm.
          - apply L'; [assumption|]. rewrite El. exists rest; reflexivity.
          - apply HL; [assumption|]. exists rest'; reflexivity. }
        assert (src_enc cp = src_enc cp') as HE.
        { apply (prefix_len_eq _ _ (src_enc cp' ++ rest')); auto.
          - rewrite El; exists rest; reflexivity. - exists rest'; reflexivity. }
        assert (cp = cp') as -> by (eapply enc_inj; eauto).
        clear HE. apply app_inv_head in El. subst. f_equal. apply IH; auto.
      + exfalso. apply (U' cp HV). rewrite El. exists rest; reflexivity.
    - remember (bad ++ rest) as l eqn:El.
      destruct H' as [|cp' rest' its2 V' L' I'|bad' rest' its2 U' M' I'].
      + symmetry in El. apply app_eq_nil in El as [E _]. destruct HM as (_ & [|[? _]] & _); subst; cbn in *; congruence.
      + exfalso. apply (HU cp' V'). exists rest'; reflexivity.
      + assert (bad = bad') as ->.
        { apply (prefix_len_eq _ _ (bad' ++ rest')); [rewrite El; exists rest; reflexivity|exists rest'; reflexivity|].
          destruct HM as (P1 & N1 & M1), M' as (P2 & N2 & M2).
          assert (length bad <= length bad')%nat.
          { destruct N1 as [N1|[_ N1]]; [|apply M2; [|assumption]; rewrite El; exists rest; reflexivity].
            rewrite N1. destruct N2 as [->|[N2 _]]; [lia|]. destruct bad'; [congruence|cbn; lia]. }
          assert (length bad' <= length bad)%nat.
          { destruct N2 as [N2|[_ N2]]; [|apply M1; [|assumption]; exists rest'; reflexivity].
            rewrite N2. destruct N1 as [->|[N1' _]]; [lia|]. destruct bad; [congruence|cbn; lia]. }
          lia. }
        apply app_inv_head in El. subst. f_equal. apply IH; auto.
  Qed.

  Lemma items_src src its : items src_enc lax src its -> src = srcs_of src_enc its.
  Proof. induction 1; [reflexivity| |]; rewrite IHitems at 1; reflexivity. Qed.

  Lemma items_valid src its : items src_enc lax src its ->
    Forall (fun it => match it with Good cp => valid_cp lax cp | Bad b => b <> [] end) its.
  Proof.
    induction 1 as [|cp rest its HV HL HI IH|bad rest its HU HM HI IH]; constructor; auto.
    destruct HM as (_ & [N|[N _]] & _); [destruct bad; [discriminate|discriminate]|exact N].
  Qed.

  Variable step : Z -> list Z -> sres.
  Hypothesis Hstep : step_ok src_enc dst_enc bits lax step.

  Lemma skipn_units k l : units bits l -> units bits (skipn k l).
  Proof. revert l. induction k; intros l H; [exact H|]. destruct l; [exact H|]. inversion H; apply IHk; auto. Qed.

  Lemma step_item c rest : units bits (c :: rest) ->
    match step c rest with
    | SGood out k => exists cp, out = dst_enc cp /\ valid_cp lax cp /\ c :: rest = src_enc cp ++ skipn k rest /\
        forall its, items src_enc lax (skipn k rest) its -> items src_enc lax (c :: rest) (Good cp :: its)
    | SBad k => length (firstn k rest) = k /\ c :: rest = (c :: firstn k rest) ++ skipn k rest /\
        forall its, items src_enc lax (skipn k rest) its ->
          items src_enc lax (c :: rest) (Bad (c :: firstn k rest) :: its)
    end.
  Proof.
    intros HU. pose proof (Hstep c rest HU) as HS. destruct (step c rest) as [out k|k].
    - destruct HS as (cp & HV & -> & HE & HL). exists cp. split; [reflexivity|]. split; [exact HV|]. split; [exact HE|].
      intros its HI. rewrite HE at 1. constructor; auto. rewrite <- HE. exact HL.
    - destruct HS as (Hk & Hun & HM). split; [apply firstn_length_le; exact Hk|].
      assert (c :: rest = (c :: firstn k rest) ++ skipn k rest) as HE by (cbn; now rewrite firstn_skipn).
      split; [exact HE|]. intros its HI. rewrite HE at 1. constructor; rewrite <- ?HE; auto.
  Qed.

  Lemma items_exist_n n : forall src, (length src <= n)%nat -> units bits src ->
    exists its, items src_enc lax src its.
  Proof.
    induction n; intros src Hn HU.
    - destruct src; [exists []; constructor|cbn in Hn; lia].
    - destruct src as [|c rest]; [exists []; constructor|]. cbn in Hn.
      pose proof (step_item c rest HU) as HS. apply units_cons in HU as [_ HU].
      destruct (step c rest) as [out k|k].
      + destruct HS as (cp & _ & _ & _ & HI). destruct (IHn (skipn k rest)) as [its Hits];
          [rewrite skipn_length; lia|apply skipn_units; auto|]. eauto.
      + destruct HS as (_ & _ & HI). destruct (IHn (skipn k rest)) as [its Hits];
          [rewrite skipn_length; lia|apply skipn_units; auto|]. eauto.
  Qed.
  Lemma items_exist src : units bits src -> exists its, items src_enc lax src its.
  Proof. apply (items_exist_n (length src)); lia. Qed.

  Variable repl : list Z.
  Hypothesis Hrepl : repl = dst_enc 0xFFFD.
  Variable stop : bool.

  Lemma tc_loop_ok fuel : forall src space its, (length src < fuel)%nat -> units bits src ->
    0 <= space -> items src_enc lax src its ->
    exists r, tc_loop step repl stop fuel src space = Some r /\
      transcoded src_enc dst_enc stop its space r.
  Proof.
    induction fuel as [|fuel IH]; intros src space its Hf HU Hsp HI; [lia|].
    destruct src as [|c rest].
    { assert (its = []) as -> by (eapply items_det; eauto; constructor).
      eexists; split; [reflexivity|]. exists [], []. cbn. repeat split; auto; lia. }
    cbn [tc_loop]. cbn [length] in Hf.
    pose proof (step_item c rest HU) as HS. pose proof HU as HU0. apply units_cons in HU as [_ HU].
    destruct (step c rest) as [out k|k] eqn:ES.
    - destruct HS as (cp & -> & HV & HE & HC).
      destruct (items_exist (skipn k rest) (skipn_units k rest HU)) as [its1 HI1].
      assert (its = Good cp :: its1) as -> by (eapply items_det; eauto).
      destruct (space <? zlen (dst_enc cp)) eqn:EB.
      + eexists; split; [reflexivity|]. exists [], (Good cp :: its1). cbn [t_rest t_out t_reason t_notes].
        split; [reflexivity|]. split; [apply items_src; auto|]. split; [reflexivity|].
        split; [rewrite zlen_nil; lia|]. split; [reflexivity|].
        exists (Good cp), its1. cbn. repeat split; auto. lia.
      + destruct (IH (skipn k rest) (space - zlen (dst_enc cp)) its1) as (r & Hr & HT);
          [rewrite skipn_length; lia|apply skipn_units; auto|lia|auto|].
        rewrite Hr. cbn [obind]. eexists; split; [reflexivity|].
        destruct HT as (done & todo & -> & Hrest & Hout & Hlen & Hstop & Hre).
        exists (Good cp :: done), todo. cbn [t_rest t_out t_reason t_notes].
        split; [reflexivity|]. split; [exact Hrest|]. split; [cbn; f_equal; exact Hout|].
        rewrite zlen_app. split; [lia|]. split; [exact Hstop|].
        destruct (t_reason r).
        * exact Hre.
        * destruct Hre as (it & more & E1 & E2 & E3 & E4). exists it, more.
          repeat split; auto. lia.
        * exact Hre.
    - destruct HS as (Hk & HE & HC).
      destruct (items_exist (skipn k rest) (skipn_units k rest HU)) as [its1 HI1].
      assert (its = Bad (c :: firstn k rest) :: its1) as -> by (eapply items_det; eauto).
      assert ((c :: firstn k rest) ++ srcs_of src_enc its1 = c :: rest) as HN.
      { rewrite <- (items_src _ _ HI1). symmetry. exact HE. }
      assert (zlen (c :: firstn k rest) = Z.of_nat (S k)) as HZ by (unfold zlen; cbn [length]; rewrite Hk; reflexivity).
      destruct stop eqn:Est.
      + eexists; split; [reflexivity|]. exists [], (Bad (c :: firstn k rest) :: its1).
        cbn [t_rest t_out t_reason t_notes].
        split; [reflexivity|]. split; [apply items_src; auto|]. split; [reflexivity|].
        split; [rewrite zlen_nil; lia|]. split; [reflexivity|]. split; [reflexivity|].
        do 2 eexists; split; [reflexivity|]. cbn [notes_of]. rewrite HN, HZ. reflexivity.
      + destruct (space <? zlen repl) eqn:EB.
        * eexists; split; [reflexivity|]. exists [], (Bad (c :: firstn k rest) :: its1).
          cbn [t_rest t_out t_reason t_notes].
          split; [reflexivity|]. split; [apply items_src; auto|]. split; [reflexivity|].
          split; [rewrite zlen_nil; lia|]. split; [reflexivity|].
          do 2 eexists; split; [reflexivity|]. rewrite zlen_nil. cbn [out_of]. rewrite <- Hrepl.
          split; [lia|]. split; [discriminate|]. cbn [notes_of]. rewrite HN, HZ. reflexivity.
        * destruct (IH (skipn k rest) (space - zlen repl) its1) as (r & Hr & HT);
            [rewrite skipn_length; lia|apply skipn_units; auto|lia|auto|].
          rewrite Hr. cbn [obind]. eexists; split; [reflexivity|].
          destruct HT as (done & todo & -> & Hrest & Hout & Hlen & Hstop & Hre).
          exists (Bad (c :: firstn k rest) :: done), todo. cbn [t_rest t_out t_reason t_notes].
          split; [reflexivity|]. split; [exact Hrest|]. split; [cbn; rewrite Hrepl, Hout; reflexivity|].
          rewrite zlen_app. split; [lia|]. split; [discriminate|].
          cbn [notes_of]. rewrite HN, HZ.
          destruct (t_reason r).
          -- destruct Hre as [E1 E2]. split; [exact E1|]. now rewrite E2.
          -- destruct Hre as (it & more & E1 & E2 & E3 & E4). exists it, more.
             rewrite E4. repeat split; auto. lia.
          -- destruct Hre as [[=] _].
  Qed.

End Generic.

(* A pair (source form, destination form) with its transcode function. *)
Definition transcoder_ok (src_enc dst_enc : Z -> list Z) (bits : Z)
    (tc : bool -> bool -> list Z -> Z -> option tc_result) : Prop :=
  forall lax stop src space, units bits src -> 0 <= space ->
    exists its, items src_enc lax src its /\
    exists r, tc lax stop src space = Some r /\ transcoded src_enc dst_enc stop its space r.

Lemma transcode_ok src_enc dst_enc bits step repl :
  (forall lax, enc_ok src_enc bits lax) ->
  (forall lax, step_ok src_enc dst_enc bits lax (step lax)) ->
  repl = dst_enc 0xFFFD -> transcoder_ok src_enc dst_enc bits (transcode step repl).
Proof.
  intros He Hs Hr lax stop src space HU Hsp.
  destruct (items_exist src_enc dst_enc bits lax (step lax) (Hs lax) src HU) as [its HI].
  exists its. split; [exact HI|]. unfold transcode.
  eapply tc_loop_ok; eauto.
Qed.

Lemma transcode_8_32_ok : transcoder_ok enc8 enc32 8 transcode_8_32.
Proof. apply transcode_ok; auto using enc8_enc_ok, step_8_32_ok. Qed.
Lemma transcode_8_16_ok : transcoder_ok enc8 enc16 8 transcode_8_16.
Proof. apply transcode_ok; auto using enc8_enc_ok, step_8_16_ok. Qed.
Lemma transcode_8_8_ok : transcoder_ok enc8 enc8 8 transcode_8_8.
Proof. apply transcode_ok; auto using enc8_enc_ok, step_8_8_ok. Qed.
Lemma transcode_16_32_ok : transcoder_ok enc16 enc32 16 transcode_16_32.
Proof. apply transcode_ok; auto using enc16_enc_ok, step_16_32_ok. Qed.
Lemma transcode_16_16_ok : transcoder_ok enc16 enc16 16 transcode_16_16.
Proof. apply transcode_ok; auto using enc16_enc_ok, step_16_16_ok. Qed.
Lemma transcode_16_8_ok : transcoder_ok enc16 enc8 16 transcode_16_8.
Proof. apply transcode_ok; auto using enc16_enc_ok, step_16_8_ok. Qed.
Lemma transcode_32_32_ok : transcoder_ok enc32 enc32 32 transcode_32_32.
Proof. apply transcode_ok; auto using enc32_enc_ok, step_32_32_ok. Qed.
Lemma transcode_32_16_ok : transcoder_ok enc32 enc16 32 transcode_32_16.
Proof. apply transcode_ok; auto using enc32_enc_ok, step_32_16_ok. Qed.
Lemma transcode_32_8_ok : transcoder_ok enc32 enc8 32 transcode_32_8.
Proof. apply transcode_ok; auto using enc32_enc_ok, step_32_8_ok. Qed.
