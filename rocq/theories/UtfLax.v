(* The lax surrogate policy. *)
From Verif Require Import Base UtfSpec UtfModel UtfBits UtfDecode UtfLoop UtfSizeModel UtfSizeProofs
  UtfUnsafeProofs UtfForms UtfTheorems.

(* In lax mode an unpaired surrogate unit is the code point itself. *)
Definition laxify (it : item) : item :=
  match it with Bad [c] => if is_surr c then Good c else it | _ => it end.

Lemma laxify_items f : f <> U8 -> forall n src its, (length src <= n)%nat -> units (bits_of f) src ->
  items (enc_of f) false src its -> items (enc_of f) true src (map laxify its).
Proof.
  intros Hf. induction n as [|n IH]; intros src its Hn HU HI.
  { destruct src; [|cbn in Hn; lia]. assert (its = []) as -> by (eapply items_det_of; [exact HI|constructor]). constructor. }
  destruct src as [|c rest].
  { assert (its = []) as -> by (eapply items_det_of; [exact HI|constructor]). constructor. }
  cbn [length] in Hn.
  assert (forall k, units (bits_of f) (skipn k rest)) as HUk.
  { intros k. apply skipn_units. apply units_cons in HU as [_ HU]. exact HU. }
  destruct f; [congruence| |].
  - pose proof (step_item enc16 enc32 16 false _ (step_16_32_ok false) c rest HU) as H0.
    pose proof (step_item enc16 enc32 16 true _ (step_16_32_ok true) c rest HU) as H1.
    rewrite step_16_32_sem in H0, H1 by exact HU.
    assert (match sem16 false c rest with
            | DGood cp k => sem16 true c rest = DGood cp k
            | DBad k => k = O /\ is_surr c = true /\ sem16 true c rest = DGood c 0 end) as HS.
    { unfold sem16. destruct rest as [|c2 r].
      - destruct (is_surr c) eqn:E; cbn [andb negb]; auto.
      - destruct (highb c && lowb c2); [reflexivity|]. destruct (is_surr c) eqn:E; cbn [andb negb]; auto. }
    destruct (sem16 false c rest) as [cp k|k]; cbn [conv] in H0.
    + rewrite HS in H1. cbn [conv] in H1.
      destruct H0 as (cp0 & E0 & _ & _ & HC0). injection E0 as <-.
      destruct H1 as (cp1 & E1 & _ & _ & HC1). injection E1 as <-.
      destruct (items_exist_of U16 false (skipn k rest) (HUk k)) as [its' HI'].
      assert (its = Good cp :: its') as -> by (apply (items_det_of U16 false (c :: rest)); [exact HI|apply HC0; exact HI']).
      cbn [map laxify]. apply HC1. apply (IH (skipn k rest) its'); [rewrite skipn_length; lia|apply HUk|exact HI'].
    + destruct HS as (-> & Hs & HS). rewrite HS in H1. cbn [conv] in H1.
      destruct H0 as (_ & _ & HC0). destruct H1 as (cp1 & E1 & _ & _ & HC1). injection E1 as <-.
      destruct (items_exist_of U16 false (skipn 0 rest) (HUk O)) as [its' HI'].
      assert (its = Bad [c] :: its') as -> by (apply (items_det_of U16 false (c :: rest)); [exact HI|apply (HC0 its'); exact HI']).
      cbn [map laxify]. rewrite Hs. apply HC1. apply (IH (skipn 0 rest) its'); [cbn; lia|apply HUk|exact HI'].
  - pose proof (step_item enc32 enc32 32 false _ (step_32_32_ok false) c rest HU) as H0.
    pose proof (step_item enc32 enc32 32 true _ (step_32_32_ok true) c rest HU) as H1.
    rewrite step_32_32_sem in H0, H1 by exact HU. unfold sem32, valid32 in H0, H1. cbn [orb] in H1.
    rewrite andb_true_r in H1.
    destruct (items_exist_of U32 false (skipn 0 rest) (HUk O)) as [its' HI'].
    destruct (Z.ltb_spec c 0x110000) as [Hc|Hc]; cbn [andb] in H0.
    + cbn [conv] in H1. destruct H1 as (cp1 & E1 & _ & _ & HC1). injection E1 as <-.
      destruct (is_surr c) eqn:Es; cbn [orb negb conv] in H0.
      * destruct H0 as (_ & _ & HC0).
        assert (its = Bad [c] :: its') as -> by (apply (items_det_of U32 false (c :: rest)); [exact HI|apply (HC0 its'); exact HI']).
        cbn [map laxify]. rewrite Es. apply HC1. apply (IH (skipn 0 rest) its'); [cbn; lia|apply HUk|exact HI'].
      * destruct H0 as (cp0 & E0 & _ & _ & HC0). injection E0 as <-.
        assert (its = Good c :: its') as -> by (apply (items_det_of U32 false (c :: rest)); [exact HI|apply (HC0 its'); exact HI']).
        cbn [map laxify]. apply HC1. apply (IH (skipn 0 rest) its'); [cbn; lia|apply HUk|exact HI'].
    + cbn [conv] in H0, H1. destruct H0 as (_ & _ & HC0), H1 as (_ & _ & HC1).
      assert (its = Bad [c] :: its') as -> by (apply (items_det_of U32 false (c :: rest)); [exact HI|apply (HC0 its'); exact HI']).
      cbn [map laxify]. replace (is_surr c) with false by (unfold is_surr; lia).
      apply (HC1 (map laxify its')). apply (IH (skipn 0 rest) its'); [cbn; lia|apply HUk|exact HI'].
Qed.

(* UTF-8 text without the beginning of an encoded surrogate. *)
Definition no_encoded_surrogate (src : list Z) : Prop :=
  forall p b q, src = p ++ 0xED :: b :: q -> ~ (0xA0 <= b <= 0xBF).

Lemma no_enc_surr_tl c r : no_encoded_surrogate (c :: r) -> no_encoded_surrogate r.
Proof. intros H p b q ->. apply (H (c :: p) b q). reflexivity. Qed.
Lemma no_enc_surr_skipn k : forall r, no_encoded_surrogate r -> no_encoded_surrogate (skipn k r).
Proof.
  induction k as [|k IH]; intros r H; [exact H|]. destruct r; [exact H|]. cbn. apply IH.
  eapply no_enc_surr_tl; eauto.
Qed.

Lemma sem8_lax_same c rest : no_encoded_surrogate (c :: rest) -> sem8 true c rest = sem8 false c rest.
Proof.
  intros H. unfold sem8. destruct (c <? 0x80); [reflexivity|].
  destruct ((0xC2 <=? c) && (c <=? 0xDF)); [reflexivity|].
  destruct ((0xE0 <=? c) && (c <=? 0xEF)); [|reflexivity].
  destruct rest as [|b1 r]; [reflexivity|].
  replace (second3 true c b1) with (second3 false c b1); [reflexivity|].
  unfold second3. f_equal. cbn [negb]. rewrite andb_false_r, andb_true_r.
  destruct (Z.eqb_spec c 0xED) as [->|]; [|reflexivity].
  specialize (H [] b1 r eq_refl). destruct (Z.leb_spec b1 0x9F); [lia|].
  unfold andb. destruct (Z.leb_spec b1 0xBF); [|reflexivity]. exfalso; apply H; lia.
Qed.

Lemma tc_loop_ext (P : list Z -> Prop) step step' repl stop :
  (forall c r, P (c :: r) -> step c r = step' c r) ->
  (forall c r k, P (c :: r) -> P (skipn k r)) ->
  forall fuel src space, P src ->
    tc_loop step repl stop fuel src space = tc_loop step' repl stop fuel src space.
Proof.
  intros He Hk. induction fuel as [|fuel IH]; intros src space HP; [reflexivity|]. cbn [tc_loop].
  destruct src as [|c r]; [reflexivity|]. rewrite <- (He c r HP).
  destruct (step c r) as [out k|k].
  - destruct (space <? zlen out); [reflexivity|]. rewrite (IH (skipn k r)) by (eapply Hk; eauto). reflexivity.
  - destruct stop; [reflexivity|]. destruct (space <? zlen repl); [reflexivity|].
    rewrite (IH (skipn k r)) by (eapply Hk; eauto). reflexivity.
Qed.

Lemma lax_same_8 g stop src space : units 8 src -> no_encoded_surrogate src ->
  transcode_of U8 g true stop src space = transcode_of U8 g false stop src space.
Proof.
  intros HU HN.
  assert (forall step, (forall lax c r, units 8 (c :: r) -> step lax c r = conv (enc_of g) (sem8 lax c r)) ->
    forall repl, transcode step repl true stop src space = transcode step repl false stop src space) as H.
  { intros step HS repl. unfold transcode.
    apply (tc_loop_ext (fun s => units 8 s /\ no_encoded_surrogate s)); [| |split; assumption].
    - intros c r [HU' HN']. rewrite !HS by exact HU'. rewrite sem8_lax_same by exact HN'. reflexivity.
    - intros c r k [HU' HN']. apply units_cons in HU' as [_ HU']. split.
      + apply skipn_units; exact HU'.
      + apply no_enc_surr_skipn. eapply no_enc_surr_tl; eauto. }
  destruct g; cbn [transcode_of enc_of] in *; apply H; intros;
    [apply step_8_8_sem|apply step_8_16_sem|apply step_8_32_sem]; assumption.
Qed.

(* What strict mode makes of an item of the lax reading: the bytes of an encoded surrogate, or of
   the beginning of one, are ill-formed one by one. *)
Definition strictly (it : item) : list item :=
  match src_of enc8 it with
  | b0 :: b1 :: _ => if (b0 =? 0xED) && (0xA0 <=? b1) && (b1 <=? 0xBF) then map (fun u => Bad [u]) (src_of enc8 it) else [it]
  | _ => [it]
  end.
Lemma sem8_cont lax b r : 0x80 <= b <= 0xBF -> sem8 lax b r = DBad 0.
Proof.
  intros H. unfold sem8. replace (b <? 0x80) with false by lia. replace ((0xC2 <=? b) && (b <=? 0xDF)) with false by lia.
  replace ((0xE0 <=? b) && (b <=? 0xEF)) with false by lia. replace ((0xF0 <=? b) && (b <=? 0xF4)) with false by lia. reflexivity.
Qed.
Lemma items_bad1 lax b r its : units 8 (b :: r) -> sem8 lax b r = DBad 0 -> items enc8 lax r its -> items enc8 lax (b :: r) (Bad [b] :: its).
Proof.
  intros HU HS HI. pose proof (step_item enc8 enc32 8 lax _ (step_8_32_ok lax) b r HU) as H. rewrite step_8_32_sem, HS in H by exact HU. cbn [conv] in H.
  destruct H as (_ & _ & H). exact (H its HI).
Qed.
Lemma strictly_items : forall n src its, (length src <= n)%nat -> units 8 src -> items enc8 true src its -> items enc8 false src (flat_map strictly its).
Proof.
  induction n as [|n IH]; intros src its Hn HU HI.
  { destruct src; [|cbn in Hn; lia]. assert (its = []) as -> by (eapply (items_det_of U8); [exact HI|constructor]). constructor. }
  destruct src as [|c rest].
  { assert (its = []) as -> by (eapply (items_det_of U8); [exact HI|constructor]). constructor. }
  cbn [length] in Hn.
  assert (HUk : forall k, units 8 (skipn k rest)) by (intros k; apply skipn_units; apply units_cons in HU as [_ HU]; exact HU).
  pose proof (step_item enc8 enc32 8 true _ (step_8_32_ok true) c rest HU) as H1. pose proof (step_item enc8 enc32 8 false _ (step_8_32_ok false) c rest HU) as H0.
  rewrite step_8_32_sem in H0, H1 by exact HU.
  assert (D : (exists b1 r1, rest = b1 :: r1 /\ c = 0xED /\ 0xA0 <= b1 <= 0xBF) \/ (forall b1 r1, rest = b1 :: r1 -> (c =? 0xED) && (0xA0 <=? b1) && (b1 <=? 0xBF) = false)).
  { destruct rest as [|b1 r1]; [right; discriminate|]. destruct ((c =? 0xED) && (0xA0 <=? b1) && (b1 <=? 0xBF)) eqn:E; [left; exists b1, r1; repeat split; lia|right]. intros ? ? [= <- <-]. exact E. }
  destruct D as [(b1 & r1 & -> & -> & Hb)|D].
  - clear H0. assert (S1 : sem8 true 0xED (b1 :: r1) = match r1 with b2 :: _ => if cont b2 then DGood (0xD * 4096 + (b1 - 0x80) * 64 + (b2 - 0x80)) 2 else DBad 1 | [] => DBad 1 end).
    { unfold sem8, second3. cbn [Z.ltb Z.leb Z.eqb Z.compare Pos.compare Pos.compare_cont andb negb Pos.eqb]. replace (0x80 <=? b1) with true by lia. replace (b1 <=? 0xBF) with true by lia. reflexivity. }
    assert (S0 : sem8 false 0xED (b1 :: r1) = DBad 0).
    { unfold sem8, second3. cbn [Z.ltb Z.leb Z.eqb Z.compare Pos.compare Pos.compare_cont andb negb Pos.eqb]. replace (b1 <=? 0x9F) with false by lia. rewrite andb_false_r. reflexivity. }
    rewrite S1 in H1. apply units_cons in HU as HU1. destruct HU1 as [_ HU1]. apply units_cons in HU1 as HU2. destruct HU2 as [_ HU2].
    assert (BB : forall l its', units 8 l -> items enc8 false l its' -> (l = r1) -> items enc8 false (0xED :: b1 :: r1) (Bad [0xED] :: Bad [b1] :: its')).
    { intros l its' _ HI' ->. apply items_bad1; [exact HU|exact S0|]. apply items_bad1; [exact HU1|apply sem8_cont; lia|exact HI']. }
    assert (ONE : forall it its', src_of enc8 it = [0xED; b1] -> items enc8 false r1 (flat_map strictly its') -> items enc8 false (0xED :: b1 :: r1) (flat_map strictly (it :: its'))).
    { intros it its' Ei HI'. cbn [flat_map]. unfold strictly at 1. rewrite Ei. cbn [Z.eqb Pos.eqb]. replace (true && (0xA0 <=? b1) && (b1 <=? 0xBF)) with true by lia. cbn [map app]. apply (BB r1); auto. }
    destruct r1 as [|b2 r2]; [|destruct (cont b2) eqn:Ec].
    + cbn [conv] in H1. destruct H1 as (_ & _ & H1). cbn [skipn firstn] in H1. destruct (items_exist_of U8 true [] ltac:(constructor)) as [its' HI'].
      assert (its = Bad [0xED; b1] :: its') as -> by (apply (items_det_of U8 true [0xED; b1]); [exact HI|apply H1; exact HI']). apply ONE; [reflexivity|]. apply IH; [cbn; lia|constructor|exact HI'].
    + cbn [conv] in H1. destruct H1 as (cp & _ & _ & Es & H1). cbn [skipn] in H1, Es. apply units_cons in HU2 as HU3. destruct HU3 as [_ HU3]. destruct (items_exist_of U8 true r2 HU3) as [its' HI'].
      assert (its = Good cp :: its') as -> by (apply (items_det_of U8 true (0xED :: b1 :: b2 :: r2)); [exact HI|apply H1; exact HI']).
      assert (Ei : src_of enc8 (Good cp) = [0xED; b1; b2]). { cbn [src_of]. apply (app_inv_tail r2). symmetry. exact Es. }
      cbn [flat_map]. unfold strictly at 1. rewrite Ei. cbn [Z.eqb Pos.eqb]. replace (true && (0xA0 <=? b1) && (b1 <=? 0xBF)) with true by lia. cbn [map app].
      apply (BB (b2 :: r2)); [exact HU2| |reflexivity]. unfold cont in Ec. apply items_bad1; [exact HU2|apply sem8_cont; lia|]. apply IH; [cbn [length] in Hn; lia|exact HU3|exact HI'].
    + cbn [conv] in H1. destruct H1 as (_ & _ & H1). cbn [skipn firstn] in H1. destruct (items_exist_of U8 true (b2 :: r2) HU2) as [its' HI'].
      assert (its = Bad [0xED; b1] :: its') as -> by (apply (items_det_of U8 true (0xED :: b1 :: b2 :: r2)); [exact HI|apply H1; exact HI']). apply ONE; [reflexivity|]. apply IH; [cbn [length] in *; lia|exact HU2|exact HI'].
  - assert (SS : sem8 true c rest = sem8 false c rest).
    { unfold sem8. destruct (c <? 0x80); [reflexivity|]. destruct ((0xC2 <=? c) && (c <=? 0xDF)); [reflexivity|]. destruct ((0xE0 <=? c) && (c <=? 0xEF)); [|reflexivity].
      destruct rest as [|b1 r1]; [reflexivity|]. specialize (D b1 r1 eq_refl). replace (second3 true c b1) with (second3 false c b1); [reflexivity|]. unfold second3. cbn [negb].
      rewrite andb_false_r, andb_true_r. destruct (Z.eqb_spec c 0xED) as [->|]; [|reflexivity]. cbn [Z.eqb Pos.eqb]. lia. }
    assert (KEEP : forall it k, c :: rest = src_of enc8 it ++ skipn k rest -> strictly it = [it]).
    { intros it k E. unfold strictly. destruct (src_of enc8 it) as [|x [|y l]]; try reflexivity. cbn [app] in E. injection E as <- E. rewrite (D y (l ++ skipn k rest)) by exact E. reflexivity. }
    rewrite <- SS in H0. destruct (sem8 true c rest) as [cp k|k]; cbn [conv] in H0, H1; destruct (items_exist_of U8 true (skipn k rest) (HUk k)) as [its' HI'].
    + destruct H1 as (cp1 & E1 & _ & ES & H1). injection E1 as <-. destruct H0 as (cp0 & E0 & _ & _ & H0). injection E0 as <-.
      assert (its = Good cp :: its') as -> by (apply (items_det_of U8 true (c :: rest)); [exact HI|apply H1; exact HI']).
      cbn [flat_map]. rewrite (KEEP (Good cp) k ES). cbn [app]. apply H0. apply IH; [rewrite skipn_length; lia|apply HUk|exact HI'].
    + destruct H1 as (_ & ES & H1). destruct H0 as (_ & _ & H0).
      assert (its = Bad (c :: firstn k rest) :: its') as -> by (apply (items_det_of U8 true (c :: rest)); [exact HI|apply H1; exact HI']).
      cbn [flat_map]. rewrite (KEEP (Bad (c :: firstn k rest)) k ES). cbn [app]. apply H0. apply IH; [rewrite skipn_length; lia|apply HUk|exact HI'].
Qed.
