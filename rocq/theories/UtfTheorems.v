(* Consequences of the correctness of the nine transcoders. *)
From Verif Require Import Base DestModel DestProofs UtfSpec UtfModel UtfBits UtfDecode UtfLoop
  UtfSizeModel UtfSizeProofs UtfUnsafeProofs UtfForms.

Lemma transcode_of_ok f g : transcoder_ok (enc_of f) (enc_of g) (bits_of f) (transcode_of f g).
Proof.
  destruct f, g; auto using transcode_8_8_ok, transcode_8_16_ok, transcode_8_32_ok, transcode_16_8_ok,
    transcode_16_16_ok, transcode_16_32_ok, transcode_32_8_ok, transcode_32_16_ok, transcode_32_32_ok.
Qed.

Lemma enc_of_ok f lax : enc_ok (enc_of f) (bits_of f) lax.
Proof. destruct f; auto using enc8_enc_ok, enc16_enc_ok, enc32_enc_ok. Qed.

Lemma items_det_of f lax src its its' :
  items (enc_of f) lax src its -> items (enc_of f) lax src its' -> its = its'.
Proof. intros. eapply (items_det (enc_of f) (enc_of f) (bits_of f) lax (enc_of_ok f lax)); eauto. Qed.

Lemma items_exist_of f lax src : units (bits_of f) src -> exists its, items (enc_of f) lax src its.
Proof.
  intros HU. destruct (transcode_of_ok f U32 lax false src 0 HU ltac:(lia)) as (its & HI & _). eauto.
Qed.

(* transcode for a given segmentation *)
Lemma transcode_items f g lax stop src space its : units (bits_of f) src -> 0 <= space ->
  items (enc_of f) lax src its ->
  exists r, transcode_of f g lax stop src space = Some r /\
    transcoded (enc_of f) (enc_of g) stop its space r.
Proof.
  intros HU HS HI. destruct (transcode_of_ok f g lax stop src space HU HS) as (its' & HI' & H).
  rewrite (items_det_of f lax src its its' HI HI'). exact H.
Qed.

Lemma srcs_app enc a b : srcs_of enc (a ++ b) = srcs_of enc a ++ srcs_of enc b.
Proof. apply flat_map_app. Qed.
Lemma outs_app enc a b : outs_of enc (a ++ b) = outs_of enc a ++ outs_of enc b.
Proof. apply flat_map_app. Qed.

Lemma valid_FFFD lax : valid_cp lax 0xFFFD.
Proof. split; [lia|]. right. reflexivity. Qed.

Lemma enc_of_len f cp : 1 <= zlen (enc_of f cp) <= 4.
Proof. destruct f; cbn [enc_of]; unfold enc8, enc16, enc32, zlen; bdestr; cbn; lia. Qed.

Lemma out_len g it : 1 <= zlen (out_of (enc_of g) it) <= 4.
Proof. destruct it; apply enc_of_len. Qed.

Lemma outs_len_pos g its : zlen its <= zlen (outs_of (enc_of g) its) <= 4 * zlen its.
Proof.
  induction its as [|it its IH]; [cbn; lia|]. change (outs_of (enc_of g) (it :: its)) with
    (out_of (enc_of g) it ++ outs_of (enc_of g) its).
  rewrite zlen_app, zlen_cons. pose proof (out_len g it). lia.
Qed.

(* ------------------------------------------------------------------ *)
(* With enough space and without the stop flag everything is converted. *)
Lemma one_shot f g lax src its space : units (bits_of f) src -> items (enc_of f) lax src its ->
  zlen (outs_of (enc_of g) its) <= space ->
  transcode_of f g lax false src space =
  Some (mk_tc [] (outs_of (enc_of g) its) Completed (notes_of (enc_of f) its)).
Proof.
  intros HU HI HS. pose proof (zlen_nonneg (outs_of (enc_of g) its)).
  destruct (transcode_items f g lax false src space its HU ltac:(lia) HI) as (r & -> & HT).
  destruct HT as (done & todo & E & Hr & Ho & Hl & _ & Hre). destruct r as [rest out reason notes].
  cbn [t_rest t_out t_reason t_notes] in *. destruct reason.
  - destruct Hre as [-> ->]. rewrite app_nil_r in E. subst. reflexivity.
  - exfalso. destruct Hre as (it & more & -> & Hgt & _). subst its out.
    rewrite outs_app in HS. change (outs_of (enc_of g) (it :: more)) with
      (out_of (enc_of g) it ++ outs_of (enc_of g) more) in HS. rewrite !zlen_app in HS.
    pose proof (zlen_nonneg (outs_of (enc_of g) more)). lia.
  - destruct Hre as [[=] _].
Qed.

(* With the stop flag and enough space: the text before the first ill-formed sequence. *)
Lemma one_shot_stop_bad f g lax src good b more space : units (bits_of f) src ->
  items (enc_of f) lax src (good ++ Bad b :: more) -> existsb is_bad good = false ->
  zlen (outs_of (enc_of g) good) <= space ->
  transcode_of f g lax true src space =
  Some (mk_tc (srcs_of (enc_of f) (Bad b :: more)) (outs_of (enc_of g) good) InvalidSequence
          [(srcs_of (enc_of f) (Bad b :: more), zlen b)]).
Proof.
  intros HU HI HG HS. pose proof (zlen_nonneg (outs_of (enc_of g) good)).
  destruct (transcode_items f g lax true src space _ HU ltac:(lia) HI) as (r & -> & HT).
  destruct HT as (done & todo & E & Hr & Ho & Hl & Hst & Hre). specialize (Hst eq_refl).
  destruct r as [rest out reason notes]. cbn [t_rest t_out t_reason t_notes] in *.
  assert (exists l, good = done ++ l /\ todo = l ++ Bad b :: more) as (l & Hl1 & Hl2).
  { clear -E Hst HG. revert done E Hst. induction good as [|x good IH]; intros done E Hst.
    - destruct done as [|y done]; [exists []; auto|]. cbn in E. injection E as <- E. discriminate Hst.
    - destruct done as [|y done].
      + exists (x :: good). cbn in *. auto.
      + cbn in E. injection E as <- E. cbn in Hst, HG. apply orb_false_iff in Hst as [_ Hst], HG as [_ HG].
        destruct (IH HG done E Hst) as (l & -> & ->). exists l. auto. }
  assert (forall g0 m0, existsb is_bad g0 = false -> notes_of (enc_of f) (g0 ++ m0) = notes_of (enc_of f) m0) as HN.
  { clear. induction g0 as [|x g0 IH]; intros m0 H; [reflexivity|]. cbn in H. apply orb_false_iff in H as [H1 H2].
    destruct x; [|discriminate]. cbn. apply IH; exact H2. }
  destruct reason.
  - destruct Hre as [-> _]. destruct l; discriminate Hl2.
  - exfalso. destruct Hre as (it & mo & -> & Hgt & Hb & _). specialize (Hb eq_refl).
    destruct l as [|x l]; [injection Hl2 as -> ->; discriminate Hb|]. injection Hl2 as -> ->.
    subst good out. rewrite outs_app in HS. change (outs_of (enc_of g) (x :: l)) with
      (out_of (enc_of g) x ++ outs_of (enc_of g) l) in HS. rewrite !zlen_app in HS.
    pose proof (zlen_nonneg (outs_of (enc_of g) l)). lia.
  - destruct Hre as (_ & b' & mo & -> & Hn).
    destruct l as [|x l].
    + cbn in Hl2. injection Hl2 as -> ->. rewrite app_nil_r in Hl1. subst good out rest.
      rewrite HN in Hn by exact HG. cbn in Hn.
      apply (app_inv_tail (notes_of (enc_of f) more) [_]) in Hn. subst notes. reflexivity.
    + exfalso. injection Hl2 as <- ->. subst good. rewrite existsb_app in HG. apply orb_false_iff in HG as [_ HG].
      discriminate HG.
Qed.

Lemma one_shot_stop_good f g lax src its space : units (bits_of f) src ->
  items (enc_of f) lax src its -> existsb is_bad its = false ->
  zlen (outs_of (enc_of g) its) <= space ->
  transcode_of f g lax true src space = Some (mk_tc [] (outs_of (enc_of g) its) Completed []).
Proof.
  intros HU HI HG HS. pose proof (zlen_nonneg (outs_of (enc_of g) its)).
  destruct (transcode_items f g lax true src space _ HU ltac:(lia) HI) as (r & -> & HT).
  destruct HT as (done & todo & E & Hr & Ho & Hl & Hst & Hre).
  destruct r as [rest out reason notes]. cbn [t_rest t_out t_reason t_notes] in *.
  destruct reason.
  - destruct Hre as [-> Hn]. rewrite app_nil_r in E. subst.
    replace (notes_of (enc_of f) done) with (@nil (list Z * Z)); [reflexivity|].
    clear -HG. induction done as [|x d IH]; [reflexivity|]. cbn in HG. apply orb_false_iff in HG as [H1 H2].
    destruct x; [|discriminate]. cbn. auto.
  - exfalso. destruct Hre as (it & more & -> & Hgt & _). subst its out.
    rewrite outs_app in HS. change (outs_of (enc_of g) (it :: more)) with
      (out_of (enc_of g) it ++ outs_of (enc_of g) more) in HS. rewrite !zlen_app in HS.
    pose proof (zlen_nonneg (outs_of (enc_of g) more)). lia.
  - exfalso. destruct Hre as (_ & b & more & -> & _). subst its. rewrite existsb_app in HG.
    apply orb_false_iff in HG as [_ HG]. discriminate HG.
Qed.

(* ------------------------------------------------------------------ *)
(* Encodings of lists of scalar values segment into them. *)
Lemma valid_lax lax cp : valid_cp false cp -> valid_cp lax cp.
Proof. intros [H [|H']]; [discriminate|]. split; auto. Qed.

Lemma longest_scalar f lax cp rest : valid_cp false cp -> longest (enc_of f) lax cp rest.
Proof.
  intros V cp' V' HP. destruct f; cbn [enc_of] in *.
  - assert (cp' = cp) as ->; [|lia].
    apply (enc8_prefix_free lax _ _ (enc8 cp ++ rest)); auto using valid_lax. exists rest; reflexivity.
  - destruct (enc16_shape _ _ V) as [[He Hc]|(c & c2 & He & Hh & Hl & Hc)]; rewrite He in *;
      destruct (enc16_shape _ _ V') as [[He' Hc']|(d & d2 & He' & Hh' & Hl' & Hc')]; rewrite He' in *; cbn; try lia.
    exfalso. cbn [app] in HP. apply prefix_cons in HP as [-> _]. destruct V as [_ [|V]]; [discriminate|].
    rewrite (high_surr _ Hh') in V. discriminate.
  - cbn; lia.
Qed.

Lemma longest_unambiguous f lax cp rest : f <> U16 -> valid_cp lax cp -> longest (enc_of f) lax cp rest.
Proof.
  intros Hf V cp' V' HP. destruct f; cbn [enc_of] in *; [|congruence|cbn; lia].
  assert (cp' = cp) as ->; [|lia].
  apply (enc8_prefix_free lax _ _ (enc8 cp ++ rest)); auto. exists rest; reflexivity.
Qed.

Lemma items_encode f lax cps : (f = U16 -> valid_text false cps) -> valid_text lax cps ->
  items (enc_of f) lax (encode (enc_of f) cps) (map Good cps).
Proof.
  intros H16 HV. induction cps as [|cp cps IH]; [constructor|].
  inversion HV as [|? ? V HV']; subst. cbn [map]. change (encode (enc_of f) (cp :: cps)) with
    (enc_of f cp ++ encode (enc_of f) cps). constructor; [exact V| |].
  - destruct f; [apply longest_unambiguous; auto; discriminate| |apply longest_unambiguous; auto; discriminate].
    specialize (H16 eq_refl). inversion H16; subst. apply longest_scalar; assumption.
  - apply IH; [|exact HV']. intros E. specialize (H16 E). inversion H16; assumption.
Qed.

Lemma enc_units f lax cp : valid_cp lax cp -> units (bits_of f) (enc_of f cp).
Proof.
  intros V. pose proof V as [Hr _]. destruct f; cbn [enc_of bits_of].
  - shape V; rng; rewrite He; repeat constructor; change (2 ^ 8) with 256; lia.
  - destruct (enc16_shape _ _ V) as [[He Hc]|(c & c2 & He & Hh & Hl & Hc)]; rewrite He;
      unfold highb, lowb in *; bsimp; repeat constructor; change (2 ^ 16) with 65536; lia.
  - repeat constructor; change (2 ^ 32) with 4294967296; lia.
Qed.

Lemma encode_units f lax cps : valid_text lax cps -> units (bits_of f) (encode (enc_of f) cps).
Proof.
  unfold units. induction 1; [constructor|]. change (encode (enc_of f) (x :: l)) with (enc_of f x ++ encode (enc_of f) l).
  apply Forall_app. split; [eapply enc_units; eauto|assumption].
Qed.

Lemma outs_good enc cps : outs_of enc (map Good cps) = encode enc cps.
Proof. unfold outs_of, encode. induction cps; cbn; [reflexivity|]. now rewrite IHcps. Qed.

Lemma no_bad_good cps : existsb is_bad (map Good cps) = false.
Proof. induction cps; auto. Qed.

Lemma valid_text_lax lax cps : valid_text false cps -> valid_text lax cps.
Proof. intros H. induction H; constructor; auto using valid_lax. Qed.

Lemma notes_good enc cps : notes_of enc (map Good cps) = [].
Proof. induction cps; auto. Qed.

Lemma transcode_valid f g lax stop cps space : (f = U16 -> valid_text false cps) -> valid_text lax cps ->
  zlen (encode (enc_of g) cps) <= space ->
  transcode_of f g lax stop (encode (enc_of f) cps) space =
  Some (mk_tc [] (encode (enc_of g) cps) Completed []).
Proof.
  intros H16 HV HS. pose proof (items_encode f lax cps H16 HV) as HI.
  pose proof (encode_units f lax cps HV) as HU.
  rewrite <- (outs_good (enc_of g)) in HS |- *. destruct stop.
  - apply one_shot_stop_good; auto using no_bad_good.
  - rewrite (one_shot f g lax _ _ space HU HI HS). rewrite notes_good. reflexivity.
Qed.

(* ------------------------------------------------------------------ *)
(* Output is well-formed. *)
Lemma outs_well_formed f g lax src its : items (enc_of f) lax src its ->
  forall done todo, its = done ++ todo -> well_formed (enc_of g) lax (outs_of (enc_of g) done).
Proof.
  intros HI done todo ->. apply items_valid in HI. apply Forall_app in HI as [HI _].
  exists (map (fun it => match it with Good cp => cp | Bad _ => 0xFFFD end) done).
  split.
  - induction HI as [|x l Hx HI IH]; constructor; [|exact IH]. destruct x; [exact Hx|apply valid_FFFD].
  - clear HI. induction done as [|x l IH]; [reflexivity|]. cbn. unfold encode, outs_of in *. rewrite <- IH.
    destruct x; reflexivity.
Qed.

(* ------------------------------------------------------------------ *)
(* Resuming.  [feed] transcodes into a succession of buffers. *)
Fixpoint feed (tc : list Z -> Z -> option tc_result) (src : list Z) (spaces : list Z)
    : option (list (list Z) * list Z) :=
  match spaces with
  | [] => Some ([], src)
  | sp :: more =>
      do r <- tc src sp ;
      do p <- feed tc (t_rest r) more ;
      Some (t_out r :: fst p, snd p)
  end.

Lemma items_suffix enc lax done todo src : items enc lax src (done ++ todo) ->
  items enc lax (srcs_of enc todo) todo.
Proof.
  revert src. induction done as [|x done IH]; intros src H; cbn [app] in H.
  - rewrite <- (items_src _ _ _ _ H). exact H.
  - inversion H; subst; eapply IH; eassumption.
Qed.

Lemma units_srcs f lax src done todo : units (bits_of f) src -> items (enc_of f) lax src (done ++ todo) ->
  units (bits_of f) (srcs_of (enc_of f) todo).
Proof.
  intros HU HI. rewrite (items_src _ _ _ _ HI), srcs_app in HU. apply Forall_app in HU as [_ HU]. exact HU.
Qed.

Lemma feed_ok f g lax : forall spaces src its, Forall (Z.le 0) spaces -> units (bits_of f) src ->
  items (enc_of f) lax src its ->
  exists outs done todo, its = done ++ todo /\
    feed (transcode_of f g lax false) src spaces = Some (outs, srcs_of (enc_of f) todo) /\
    concat outs = outs_of (enc_of g) done /\ Forall2 (fun o sp => zlen o <= sp) outs spaces.
Proof.
  induction spaces as [|sp spaces IH]; intros src its HP HU HI; cbn [feed].
  { exists [], [], its. rewrite (items_src _ _ _ _ HI). repeat split; constructor. }
  inversion HP as [|? ? Hsp HP']; subst.
  destruct (transcode_items f g lax false src sp its HU Hsp HI) as (r & -> & HT). cbn [obind].
  destruct HT as (done & todo & -> & Hr & Ho & Hl & _).
  rewrite Hr. destruct (IH (srcs_of (enc_of f) todo) todo HP') as (outs & d & t & -> & -> & Hc & HF).
  { eapply units_srcs; eauto. } { eapply items_suffix; eauto. }
  cbn [obind fst snd]. exists (t_out r :: outs), (done ++ d), t.
  rewrite app_assoc. repeat split; auto.
  cbn [concat]. rewrite outs_app, Ho, Hc. reflexivity.
Qed.

(* Enough buffers of at least 4 units finish the job. *)
Lemma feed_all f g lax : forall spaces src its, Forall (Z.le 4) spaces -> units (bits_of f) src ->
  items (enc_of f) lax src its -> (length its <= length spaces)%nat ->
  exists outs, feed (transcode_of f g lax false) src spaces = Some (outs, []) /\
    concat outs = outs_of (enc_of g) its.
Proof.
  induction spaces as [|sp spaces IH]; intros src its HP HU HI HL; cbn [feed].
  { destruct its; [|cbn in HL; lia]. exists []. rewrite (items_src _ _ _ _ HI). auto. }
  inversion HP as [|? ? Hsp HP']; subst.
  destruct (transcode_items f g lax false src sp its HU ltac:(lia) HI) as (r & -> & HT). cbn [obind].
  destruct HT as (done & todo & -> & Hr & Ho & Hl & _ & Hre).
  rewrite Hr. destruct (IH (srcs_of (enc_of f) todo) todo HP') as (outs & -> & Hc).
  { eapply units_srcs; eauto. } { eapply items_suffix; eauto. }
  { rewrite app_length in HL. cbn [length] in HL. destruct (t_reason r).
    - destruct Hre as [-> _]. cbn; lia.
    - destruct Hre as (it & more & -> & Hgt & _). destruct done; [|cbn in *; lia]. exfalso.
      rewrite Ho in Hgt. pose proof (out_len g it). cbn in Hgt. lia.
    - destruct Hre as [[=] _]. }
  cbn [obind fst snd]. eexists; split; [reflexivity|]. cbn [concat]. rewrite outs_app, Ho, Hc. reflexivity.
Qed.

Lemma items_length enc lax src its : (forall cp, valid_cp lax cp -> enc cp <> []) ->
  items enc lax src its -> (length its <= length src)%nat.
Proof.
  intros He. induction 1 as [|cp rest its HV HL HI IH|bad rest its HUn HM HI IH]; [apply Nat.le_refl| |];
    cbn [length]; rewrite app_length.
  - specialize (He cp HV). destruct (enc cp); [congruence|cbn; lia].
  - destruct HM as (_ & [N|[N _]] & _); [lia|]. destruct bad; [congruence|cbn; lia].
Qed.

Lemma items_length_of f lax src its : items (enc_of f) lax src its -> (length its <= length src)%nat.
Proof.
  apply items_length. intros cp HV E. pose proof (enc_of_len f cp) as H. rewrite E in H. cbn in H. lia.
Qed.

(* The notifications of all the calls of a text processed piecewise, and what is left. *)
Fixpoint feed_notes (tc : list Z -> Z -> option tc_result) (src : list Z) (spaces : list Z)
    : option (list (list Z * Z) * list Z) :=
  match spaces with
  | [] => Some ([], src)
  | sp :: more =>
      do r <- tc src sp ;
      do p <- feed_notes tc (t_rest r) more ;
      Some (t_notes r ++ fst p, snd p)
  end.
(* [repeated l l' n]: l' is l with some elements repeated in place, n repetitions in all *)
Inductive repeated {A} : list A -> list A -> nat -> Prop :=
| rep_nil : repeated [] [] 0
| rep_cons x k l l' n : repeated l l' n -> repeated (x :: l) (repeat x (S k) ++ l') (k + n).
Lemma repeated_app_l {A} (a : list A) l l' n : repeated l l' n -> repeated (a ++ l) (a ++ l') n.
Proof.
  intros H. induction a as [|x a IH]; [exact H|]. cbn [app].
  exact (rep_cons x 0 _ _ _ IH).
Qed.
Lemma repeated_refl {A} (l : list A) : repeated l l 0.
Proof. pose proof (repeated_app_l l [] [] 0 rep_nil) as H. rewrite app_nil_r in H. exact H. Qed.
Lemma notes_split enc a b : exists x, notes_of enc (a ++ b) = x ++ notes_of enc b.
Proof.
  induction a as [|[cp|u] a [x IH]]; cbn [app notes_of]; [exists []; reflexivity|eauto|].
  rewrite IH. eexists (_ :: x). reflexivity.
Qed.
Lemma feed_notes_ok f g lax : forall spaces src its, Forall (Z.le 0) spaces -> units (bits_of f) src ->
  items (enc_of f) lax src its ->
  forall notes, feed_notes (transcode_of f g lax false) src spaces = Some (notes, []) ->
  exists n, repeated (notes_of (enc_of f) its) notes n /\ (n <= length spaces)%nat.
Proof.
  induction spaces as [|sp spaces IH]; intros src its HP HU HI notes HF; cbn [feed_notes] in HF.
  { injection HF as <- ->. exists 0%nat. split; [|cbn; lia].
    assert (its = []) as -> by (apply (items_det_of f lax [] its []); auto; constructor). constructor. }
  inversion HP as [|? ? Hsp HP']; subst.
  destruct (transcode_items f g lax false src sp its HU Hsp HI) as (r & Hr & HT). rewrite Hr in HF. cbn [obind] in HF.
  destruct HT as (done & todo & -> & Hrest & Ho & Hl & _ & Hre). rewrite Hrest in HF.
  destruct (feed_notes _ (srcs_of (enc_of f) todo) spaces) as [[notes2 rest2]|] eqn:E2; [|discriminate].
  cbn [obind fst snd] in HF. injection HF as <- ->.
  destruct (IH (srcs_of (enc_of f) todo) todo HP' ltac:(eapply units_srcs; eauto) ltac:(eapply items_suffix; eauto) _ E2)
    as (n & Hn & Hle).
  destruct (t_reason r).
  - destruct Hre as [-> Hnotes]. rewrite Hnotes. cbn [notes_of] in Hn. inversion Hn; subst.
    exists 0%nat. split; [|cbn; lia]. rewrite (app_nil_r (notes_of _ _)). apply repeated_refl.
  - destruct Hre as (it & more & -> & _ & _ & Hnotes). destruct it as [cp|b].
    + cbn [notes_of] in Hn. exists n. rewrite Hnotes. split; [apply repeated_app_l; exact Hn|cbn [length]; lia].
    + cbn [notes_of] in Hn. inversion Hn as [|x k l l' m Hm]; subst.
      destruct (notes_split (enc_of f) done (Bad b :: more)) as [x Hx]. cbn [notes_of] in Hx.
      assert (Ht : t_notes r = x ++ [(b ++ srcs_of (enc_of f) more, zlen b)]).
      { rewrite Hnotes in Hx. apply (app_inv_tail (notes_of (enc_of f) more)). rewrite Hx, <- app_assoc. reflexivity. }
      exists (S k + m)%nat. split; [|cbn [length]; lia]. rewrite Hx, Ht, <- app_assoc. apply repeated_app_l.
      exact (rep_cons _ (S k) _ _ _ Hm).
  - destruct Hre as [[=] _].
Qed.

(* The results of the calls themselves. *)
Fixpoint feed_calls (tc : list Z -> Z -> option tc_result) (src : list Z) (spaces : list Z)
    : option (list tc_result) :=
  match spaces with
  | [] => Some []
  | sp :: more =>
      do r <- tc src sp ;
      do p <- feed_calls tc (t_rest r) more ;
      Some (r :: p)
  end.
(* [counts P l n]: exactly n of the elements of l satisfy P *)
Inductive counts {A} (P : A -> Prop) : list A -> nat -> Prop :=
| counts_nil : counts P [] 0
| counts_yes x l n : P x -> counts P l n -> counts P (x :: l) (S n)
| counts_no x l n : ~ P x -> counts P l n -> counts P (x :: l) n.
Lemma counts_exists {A} (P : A -> Prop) l n : counts P l n -> (n <> 0)%nat <-> Exists P l.
Proof.
  induction 1 as [|x l n Hx H IH|x l n Hx H IH].
  - split; [congruence|intros E; inversion E].
  - split; [intros _; constructor; exact Hx|intros _; discriminate].
  - rewrite IH. split; [intros E; apply Exists_cons_tl; exact E|intros E; inversion E; subst; [contradiction|assumption]].
Qed.
(* The call ran out of room in front of an ill-formed sequence. *)
Definition cut_at_bad enc lax (r : tc_result) : Prop :=
  t_reason r = Insufficient /\ unconvertible enc lax (t_rest r).
Lemma repeated_length {A} (l l' : list A) n : repeated l l' n -> length l' = (length l + n)%nat.
Proof.
  induction 1 as [|x k l l' n H IH]; [reflexivity|]. cbn [repeat app length].
  rewrite app_length, repeat_length, IH. lia.
Qed.
Lemma repeated_zero {A} (l l' : list A) n : repeated l l' n -> n = 0%nat -> l' = l.
Proof.
  induction 1 as [|x k l l' n H IH]; intros E; [reflexivity|].
  assert (k = 0%nat) as -> by lia. cbn [repeat app]. f_equal. apply IH. lia.
Qed.
Lemma counts_none_empty f g lax : forall spaces, Forall (Z.le 0) spaces -> forall rs,
  feed_calls (transcode_of f g lax false) [] spaces = Some rs -> counts (cut_at_bad (enc_of f) lax) rs 0.
Proof.
  induction spaces as [|sp spaces IH]; intros HP rs HF; cbn [feed_calls] in HF.
  { injection HF as <-. constructor. }
  inversion HP as [|? ? Hsp HP']; subst.
  destruct (transcode_items f g lax false [] sp [] ltac:(constructor) Hsp ltac:(constructor)) as (r & Hr & HT).
  rewrite Hr in HF. cbn [obind] in HF.
  destruct HT as (done & todo & E & Hrest & _ & _ & _ & Hre). symmetry in E. apply app_eq_nil in E. destruct E as [-> ->].
  rewrite Hrest in HF. cbn [srcs_of flat_map] in HF.
  destruct (feed_calls _ [] spaces) as [rs'|] eqn:E2; [|discriminate]. injection HF as <-.
  apply counts_no; [|apply IH; auto]. intros [HI _]. rewrite HI in Hre. destruct Hre as (it & more & [=] & _).
Qed.
Lemma feed_notes_exact f g lax : forall spaces src its, Forall (Z.le 0) spaces -> units (bits_of f) src ->
  items (enc_of f) lax src its ->
  forall notes, feed_notes (transcode_of f g lax false) src spaces = Some (notes, []) ->
  exists rs n, feed_calls (transcode_of f g lax false) src spaces = Some rs /\
    repeated (notes_of (enc_of f) its) notes n /\ counts (cut_at_bad (enc_of f) lax) rs n.
Proof.
  induction spaces as [|sp spaces IH]; intros src its HP HU HI notes HF; cbn [feed_notes feed_calls] in *.
  { injection HF as <- ->. exists [], 0%nat. split; [reflexivity|]. split; [|constructor].
    assert (its = []) as -> by (apply (items_det_of f lax [] its []); auto; constructor). constructor. }
  inversion HP as [|? ? Hsp HP']; subst.
  destruct (transcode_items f g lax false src sp its HU Hsp HI) as (r & Hr & HT). rewrite Hr in HF |- *. cbn [obind] in HF |- *.
  destruct HT as (done & todo & -> & Hrest & Ho & Hl & _ & Hre). rewrite Hrest in HF |- *.
  destruct (feed_notes _ (srcs_of (enc_of f) todo) spaces) as [[notes2 rest2]|] eqn:E2; [|discriminate].
  cbn [obind fst snd] in HF. injection HF as <- ->.
  assert (HIt : items (enc_of f) lax (srcs_of (enc_of f) todo) todo) by (eapply items_suffix; eauto).
  destruct (IH (srcs_of (enc_of f) todo) todo HP' ltac:(eapply units_srcs; eauto) HIt _ E2) as (rs & n & Hrs & Hn & Hc).
  rewrite Hrs. cbn [obind]. exists (r :: rs). destruct (t_reason r) eqn:ER.
  - destruct Hre as [-> Hnotes]. rewrite Hnotes. cbn [notes_of] in Hn. inversion Hn; subst.
    exists 0%nat. split; [reflexivity|]. split; [rewrite (app_nil_r (notes_of _ _)); apply repeated_refl|].
    apply counts_no; [|exact Hc]. intros [E _]. congruence.
  - destruct Hre as (it & more & -> & _ & _ & Hnotes). destruct it as [cp|b].
    + cbn [notes_of] in Hn. exists n. rewrite Hnotes. split; [reflexivity|]. split; [apply repeated_app_l; exact Hn|].
      apply counts_no; [|exact Hc]. intros [_ HUn]. rewrite Hrest in HUn. inversion HIt as [|? ? ? HV _ _|]; subst.
      apply (HUn cp HV). eexists; symmetry; eassumption.
    + cbn [notes_of] in Hn. inversion Hn as [|x k l l' m Hm]; subst.
      destruct (notes_split (enc_of f) done (Bad b :: more)) as [x Hx]. cbn [notes_of] in Hx.
      assert (Ht : t_notes r = x ++ [(b ++ srcs_of (enc_of f) more, zlen b)]).
      { rewrite Hnotes in Hx. apply (app_inv_tail (notes_of (enc_of f) more)). rewrite Hx, <- app_assoc. reflexivity. }
      exists (S k + m)%nat. split; [reflexivity|]. split.
      * rewrite Hx, Ht, <- app_assoc. apply repeated_app_l. exact (rep_cons _ (S k) _ _ _ Hm).
      * apply (counts_yes _ r rs (k + m)); [|exact Hc]. split; [exact ER|]. rewrite Hrest.
        clear - HIt. remember (srcs_of (enc_of f) (Bad b :: more)) as z eqn:Ez in *. clear Ez.
        inversion HIt; subst. assumption.
  - destruct Hre as [[=] _].
Qed.

(* ------------------------------------------------------------------ *)
(* Per code point functions. *)
Lemma is_scalar_dec cp : 0 <= cp -> (is_surr cp = false /\ cp < 0x110000) <-> valid_cp false cp.
Proof.
  intros H. split.
  - intros [H1 H2]. split; [lia|right; exact H1].
  - intros [H1 [|H2]]; [discriminate|]. split; [exact H2|lia].
Qed.

Lemma validate_of_ok f cp : 0 <= cp < 2 ^ 32 ->
  (valid_cp false cp -> validate_of f cp = zlen (enc_of f cp)) /\
  (~ valid_cp false cp -> validate_of f cp = -1).
Proof.
  intros Hc. change (2 ^ 32) with 4294967296 in Hc. rewrite <- is_scalar_dec by lia.
  destruct f; cbn [validate_of enc_of]; unfold validate8, validate16, validate32, enc8, enc16, enc32, zlen;
    rewrite is_surrogate_spec; split; intros H.
  - destruct H as [H1 H2]. rewrite H1. bdestr; bsimp; cbn; lia.
  - destruct (is_surr cp) eqn:E; [pose proof (surr_range _ E)|]; bdestr; bsimp; try reflexivity; exfalso; apply H; split; auto; lia.
  - destruct H as [H1 H2]. rewrite H1. bdestr; bsimp; cbn; lia.
  - destruct (is_surr cp) eqn:E; [pose proof (surr_range _ E)|]; bdestr; bsimp; try reflexivity; exfalso; apply H; split; auto; lia.
  - destruct H as [H1 H2]. rewrite H1. ltf. reflexivity.
  - destruct (is_surr cp) eqn:E; [reflexivity|]. cbn [negb andb]. destruct (Z.ltb_spec cp 0x110000); [|reflexivity].
    exfalso; apply H; split; auto; lia.
Qed.

Lemma shr_land x m k : 0 <= k -> Z.shiftr (Z.land x m) k = Z.land (x / 2 ^ k) (m / 2 ^ k).
Proof. intros H. rewrite Z.shiftr_land, !Z.shiftr_div_pow2 by lia. reflexivity. Qed.

Lemma lead2_val cp : 0 <= cp < 0x800 -> c8 (Z.lor 0xC0 (Z.shiftr (Z.land cp 0x7C0) 6)) = 0xC0 + cp / 64.
Proof.
  intros H. rewrite shr_land by lia. change (0x7C0 / 2 ^ 6) with 31. change (2 ^ 6) with 64.
  rewrite land_1F. rewrite (lor_mul 6 _ 5) by lia. rewrite c8_id by lia. lia.
Qed.
Lemma lead3_val cp : 0 <= cp < 0x10000 -> c8 (Z.lor 0xE0 (Z.shiftr (Z.land cp 0xF000) 12)) = 0xE0 + cp / 4096.
Proof.
  intros H. rewrite shr_land by lia. change (0xF000 / 2 ^ 12) with 15. change (2 ^ 12) with 4096.
  rewrite land_0F. rewrite (lor_mul 14 _ 4) by lia. rewrite c8_id by lia. lia.
Qed.
Lemma lead4_val cp : 0 <= cp < 0x110000 -> c8 (Z.lor 0xF0 (Z.shiftr (Z.land cp 0x1C0000) 18)) = 0xF0 + cp / 262144.
Proof.
  intros H. rewrite shr_land by lia. change (0x1C0000 / 2 ^ 18) with 7. change (2 ^ 18) with 262144.
  rewrite land_07. rewrite (lor_mul 30 _ 3) by lia. rewrite c8_id by lia. lia.
Qed.
Lemma mid12_val cp : 0 <= cp -> c8 (Z.lor 0x80 (Z.shiftr (Z.land cp 0x3F000) 12)) = 0x80 + cp / 4096 mod 64.
Proof.
  intros H. rewrite shr_land by lia. change (0x3F000 / 2 ^ 12) with 63. change (2 ^ 12) with 4096.
  rewrite land_3F. rewrite (lor_mul 2 _ 6) by lia. rewrite c8_id by lia. lia.
Qed.
Lemma mid6_val cp : 0 <= cp -> c8 (Z.lor 0x80 (Z.shiftr (Z.land cp 0xFC0) 6)) = 0x80 + cp / 64 mod 64.
Proof.
  intros H. rewrite shr_land by lia. change (0xFC0 / 2 ^ 6) with 63. change (2 ^ 6) with 64.
  rewrite land_3F. rewrite (lor_mul 2 _ 6) by lia. rewrite c8_id by lia. lia.
Qed.
Lemma last_val cp : 0 <= cp -> c8 (Z.lor 0x80 (Z.land cp 0x3F)) = 0x80 + cp mod 64.
Proof. intros H. rewrite land_3F. rewrite (lor_mul 2 _ 6) by lia. rewrite c8_id by lia. lia. Qed.

(* The code point that is written: itself, or U+FFFD above 0x10FFFF. *)
Definition clamp (cp : Z) : Z := if cp <? 0x110000 then cp else 0xFFFD.

Lemma encode_char8_ok cp : 0 <= cp -> encode_char8 cp = enc8 (clamp cp).
Proof.
  intros H. unfold encode_char8, clamp.
  destruct (Z.ltb_spec cp 0x80). { ltf. rewrite c8_id, enc8_1 by lia. reflexivity. }
  destruct (Z.ltb_spec cp 0x800). { ltf. rewrite lead2_val, last_val, enc8_2 by lia. reflexivity. }
  destruct (Z.ltb_spec cp 0x10000). { ltf. rewrite lead3_val, mid6_val, last_val, enc8_3 by lia. reflexivity. }
  destruct (Z.ltb_spec cp 0x110000); [|reflexivity].
  rewrite lead4_val, mid12_val, mid6_val, last_val, enc8_4 by lia. reflexivity.
Qed.
Lemma encode_char16_ok cp : 0 <= cp -> encode_char16 cp = enc16 (clamp cp).
Proof.
  intros H. unfold encode_char16, clamp.
  destruct (Z.ltb_spec cp 0x10000). { ltf. rewrite c16_id, enc16_1 by lia. reflexivity. }
  destruct (Z.ltb_spec cp 0x110000); [|reflexivity]. rewrite shr, land_3FF by lia. change (2 ^ 10) with 1024.
  rewrite !c16_id, enc16_2 by lia. reflexivity.
Qed.

Lemma char_size_of_ok f cp : 0 <= cp -> char_size_of f cp = zlen (encode_char_of f cp).
Proof.
  intros H. destruct f; cbn [char_size_of encode_char_of]; unfold char_size8, char_size16, char_size32,
    encode_char8, encode_char16, encode_char32, b2z, zlen; bdestr; bsimp; try reflexivity; try lia;
  repeat match goal with E : _ && _ = false |- _ => apply andb_false_iff in E as [E|E] end; bsimp; lia.
Qed.

Lemma encode_fill_of_ok f n cp : 0 <= cp < 2 ^ 32 ->
  op_wf (encode_fill_of f n cp) /\
  op_text (encode_fill_of f n cp) = concat (repeat (encode_char_of f cp) (Z.to_nat n)).
Proof.
  assert (forall (c : Z) k, repeat c k = concat (repeat [c] k)) as HR.
  { intros c k. induction k; cbn; [reflexivity|]. f_equal. exact IHk. }
  intros H. destruct f; cbn [encode_fill_of encode_char_of];
    unfold encode_fill8, encode_char8, encode_fill16, encode_char16, encode_fill32, encode_char32;
    bdestr; cbn [op_wf op_text]; split; auto; cbn [length]; lia.
Qed.

(* ------------------------------------------------------------------ *)
(* Counting. *)
Lemma count_aux f lax (loop : nat -> list Z -> Z -> Z -> option (Z * list Z))
    (nxt : Z -> list Z -> list Z) max :
  (forall fuel src count, loop (S fuel) src count max =
     match src with [] => Some (count, []) | c :: r =>
       if count <? max then loop fuel (nxt c r) (count + 1) max else Some (count, src) end) ->
  (forall c r its, units (bits_of f) (c :: r) -> items (enc_of f) lax (c :: r) its ->
     exists it its', its = it :: its' /\ items (enc_of f) lax (nxt c r) its' /\
                     units (bits_of f) (nxt c r) /\ (length (nxt c r) <= length r)%nat) ->
  forall fuel src count its, (length src < fuel)%nat -> units (bits_of f) src ->
    items (enc_of f) lax src its -> count <= max ->
    loop fuel src count max =
    Some (Z.min (count + zlen its) max, srcs_of (enc_of f) (skipn (Z.to_nat (max - count)) its)).
Proof.
  intros Hl Hn. induction fuel as [|fuel IH]; intros src count its Hf HU HI HC; [lia|].
  rewrite Hl. destruct src as [|c r].
  { assert (its = []) as -> by (eapply items_det_of; [exact HI|constructor]).
    rewrite skipn_nil, zlen_nil. do 2 f_equal. lia. }
  destruct (Hn c r its HU HI) as (it & its' & -> & HI' & HU' & HL'). cbn [length] in Hf.
  rewrite zlen_cons. pose proof (zlen_nonneg its').
  destruct (Z.ltb_spec count max).
  - rewrite (IH _ _ its') by (auto; lia). do 2 f_equal; [lia|].
    replace (Z.to_nat (max - count)) with (S (Z.to_nat (max - (count + 1)))) by lia. reflexivity.
  - replace (Z.to_nat (max - count)) with O by lia. cbn [skipn]. rewrite <- (items_src _ _ _ _ HI).
    do 2 f_equal. lia.
Qed.

Lemma step_next f lax step c r its : step_ok (enc_of f) enc32 (bits_of f) lax step ->
  units (bits_of f) (c :: r) -> items (enc_of f) lax (c :: r) its ->
  let k := match step c r with SGood _ k => k | SBad k => k end in
  exists it its', its = it :: its' /\ items (enc_of f) lax (skipn k r) its' /\
    units (bits_of f) (skipn k r) /\ (length (skipn k r) <= length r)%nat.
Proof.
  intros HS HU HI k. pose proof (step_item (enc_of f) enc32 (bits_of f) lax step HS c r HU) as H.
  assert (units (bits_of f) (skipn k r)) as HUk.
  { apply skipn_units. apply units_cons in HU as [_ HU]. exact HU. }
  destruct (items_exist_of f lax (skipn k r) HUk) as [its' HI'].
  unfold k in *. destruct (step c r) as [out k'|k'].
  - destruct H as (cp & _ & _ & _ & HC). exists (Good cp), its'. split; [|repeat split; auto; rewrite skipn_length; lia].
    eapply items_det_of; eauto.
  - destruct H as (_ & _ & HC). eexists _, its'. split; [|repeat split; auto; rewrite skipn_length; lia].
    eapply items_det_of; eauto.
Qed.

Lemma count8_ok src its max : units 8 src -> 0 <= max -> items enc8 false src its ->
  count8 src max = Some (Z.min (zlen its) max, srcs_of enc8 (skipn (Z.to_nat max) its)).
Proof.
  intros HU HM HI. unfold count8.
  replace (Z.to_nat max) with (Z.to_nat (max - 0)) by lia. change (zlen its) with (0 + zlen its).
  apply (count_aux U8 false cc8_loop (fun c r => skipn (snd (parse8 false c r)) r)); auto.
  - intros fuel s count. cbn [cc8_loop]. destruct s as [|c r]; [reflexivity|].
    destruct (parse8 false c r); reflexivity.
  - intros c r its0 HU0 HI0. pose proof (step_next U8 false (step_8_32 false) c r its0 (step_8_32_ok false) HU0 HI0) as H.
    cbv zeta in H. rewrite step_8_32_sem in H by exact HU0.
    replace (snd (parse8 false c r)) with (match sem8 false c r with DGood _ k => k | DBad k => k end).
    + destruct (sem8 false c r); exact H.
    + destruct (Z_lt_le_dec c 0x80).
      * rewrite sem8_ascii, parse8_ascii by assumption. reflexivity.
      * rewrite parse8_sem by assumption. destruct (sem8 false c r); reflexivity.
Qed.

Lemma count16_ok lax src its max : units 16 src -> 0 <= max -> items enc16 lax src its ->
  count16 src max = Some (Z.min (zlen its) max, srcs_of enc16 (skipn (Z.to_nat max) its)).
Proof.
  intros HU HM HI. unfold count16.
  replace (Z.to_nat max) with (Z.to_nat (max - 0)) by lia. change (zlen its) with (0 + zlen its).
  apply (count_aux U16 lax cc16_loop (fun c r => match r with
      | c2 :: r2 => if is_high_surrogate c && is_low_surrogate c2 then r2 else r | [] => r end)); auto.
  intros c r its0 HU0 HI0. pose proof (step_next U16 lax (step_16_32 lax) c r its0 (step_16_32_ok lax) HU0 HI0) as H.
  cbv zeta in H. rewrite step_16_32_sem in H by exact HU0. unfold sem16 in H.
  destruct r as [|c2 r2].
  - destruct (is_surr c && negb lax); exact H.
  - hl. destruct (highb c && lowb c2); [exact H|]. destruct (is_surr c && negb lax); exact H.
Qed.

Lemma count32_ok lax src its max : units 32 src -> 0 <= max -> items enc32 lax src its ->
  count32 src max = (Z.min (zlen its) max, srcs_of enc32 (skipn (Z.to_nat max) its)).
Proof.
  intros HU HM HI. unfold count32.
  assert (forall s i, items enc32 lax s i -> zlen i = zlen s /\ forall n, srcs_of enc32 (skipn n i) = skipn n s) as HX.
  { induction 1 as [|cp rest its0 HV HL HI0 IH|bad rest its0 HUn HMx HI0 IH].
    - split; [reflexivity|]. intros n. rewrite !skipn_nil. reflexivity.
    - destruct IH as [IH1 IH2]. cbn [enc32 app]. rewrite !zlen_cons. split; [lia|].
      intros [|n]; [cbn; f_equal; apply (IH2 O)|apply IH2].
    - destruct IH as [IH1 IH2].
      assert (length bad = 1%nat) as HB.
      { destruct HMx as (_ & [N|[N (cp & _ & [w Hw])]] & _); [exact N|]. cbn in Hw.
        destruct bad as [|x [|y b]]; [congruence|reflexivity|discriminate]. }
      destruct bad as [|x [|y b]]; try discriminate. cbn [app]. rewrite !zlen_cons. split; [lia|].
      intros [|n]; [cbn; f_equal; apply (IH2 O)|apply IH2]. }
  destruct (HX _ _ HI) as [-> H2]. rewrite H2.
  destruct (Z.leb_spec max (zlen src)); f_equal; try lia.
  symmetry. apply skipn_all2. unfold zlen in *. lia.
Qed.

(* The fast variants, on valid text. *)
Lemma skip_conts_enc lax cps : Forall (valid_cp lax) cps -> skip_conts (encode enc8 cps) = encode enc8 cps.
Proof.
  intros H. pose proof (first_not_cont lax cps H) as HN. destruct (encode enc8 cps) as [|c r]; [reflexivity|].
  cbn in *. rewrite HN. reflexivity.
Qed.

Lemma ccf8_ok lax cps : Forall (valid_cp lax) cps -> forall count max, 0 <= count <= max ->
  (let (n, r) := ccf8_loop (encode enc8 cps) count max in (n, skip_conts r)) =
  (Z.min (count + zlen cps) max, encode enc8 (skipn (Z.to_nat (max - count)) cps)).
Proof.
  induction 1 as [|cp cps V HF IH]; intros count max HC.
  { cbn. rewrite skipn_nil. cbn. f_equal. lia. }
  change (encode enc8 (cp :: cps)) with (enc8 cp ++ encode enc8 cps). rewrite zlen_cons.
  pose proof (zlen_nonneg cps).
  assert (forall t, Forall (fun b => cont b = true) t -> forall n, n <= max ->
    ((let (n, r) := ccf8_loop (t ++ encode enc8 cps) n max in (n, skip_conts r)) =
     (let (n, r) := ccf8_loop (encode enc8 cps) n max in (n, skip_conts r)))) as HT.
  { induction 1 as [|b t Hb HF' IHt]; intros n Hn; [reflexivity|]. cbn [app ccf8_loop].
    apply cont_range in Hb.
    assert (is_cont b = true) as Hc by (rewrite is_cont_spec by lia; unfold cont; lia).
    destruct (Z.ltb_spec n max).
    - rewrite Hc. cbn [negb]. apply IHt. lia.
    - cbn [skip_conts]. rewrite Hc. rewrite <- (IHt n Hn).
      destruct t as [|b2 t]; cbn [app].
      + destruct (encode enc8 cps) as [|x y]; [reflexivity|]. cbn [ccf8_loop].
        replace (n <? max) with false by lia. reflexivity.
      + cbn [ccf8_loop]. replace (n <? max) with false by lia. reflexivity. }
  destruct (Z.eq_dec count max) as [->|Hne].
  - replace (max - max) with 0 by lia. cbn [Z.to_nat skipn].
    pose proof (skip_conts_enc lax (cp :: cps) (Forall_cons _ V HF)) as HS.
    change (encode enc8 (cp :: cps)) with (enc8 cp ++ encode enc8 cps) in HS |- *.
    destruct (enc8 cp ++ encode enc8 cps) as [|x y]; cbn [ccf8_loop].
    + rewrite HS. f_equal. lia.
    + replace (max <? max) with false by lia. rewrite HS. f_equal. lia.
  - replace (Z.to_nat (max - count)) with (S (Z.to_nat (max - (count + 1)))) by lia. cbn [skipn].
    transitivity (let (n, r) := ccf8_loop (encode enc8 cps) (count + 1) max in (n, skip_conts r)).
    2: { rewrite IH by lia. f_equal. lia. }
    assert (exists b0 t, enc8 cp = b0 :: t /\ is_cont b0 = false /\ Forall (fun b => cont b = true) t) as (b0 & t & He & Hb & Ht).
    { pose proof (lead_not_cont lax cp [] V) as HLd. rewrite app_nil_r in HLd.
      shape V; rng; rewrite He in *; cbn [nth] in HLd; do 2 eexists; (split; [reflexivity|]); (split; [exact HLd|]);
        repeat constructor; unfold cont; lia. }
    rewrite He. cbn [app ccf8_loop]. replace (count <? max) with true by lia. rewrite Hb. cbn [negb].
    apply HT; [exact Ht|lia].
Qed.

Lemma count_fast8_ok lax cps max : Forall (valid_cp lax) cps -> 0 <= max ->
  count_fast8 (encode enc8 cps) max = (Z.min (zlen cps) max, encode enc8 (skipn (Z.to_nat max) cps)).
Proof.
  intros HF HM. unfold count_fast8. rewrite (ccf8_ok lax) by (auto; lia). rewrite Z.sub_0_r. reflexivity.
Qed.

Lemma ccf16_ok fuel : forall cps count max, Forall (valid_cp false) cps -> 0 <= count <= max -> cps <> [] ->
  (length (encode enc16 cps) < fuel)%nat ->
  ccf16_loop fuel (encode enc16 cps) count max =
  Some (Z.min (count + zlen cps) max, encode enc16 (skipn (Z.to_nat (max - count)) cps)).
Proof.
  induction fuel as [|fuel IH]; intros cps count max HF HC Hne Hf; [lia|]. cbn [ccf16_loop].
  destruct cps as [|cp cps]; [congruence|]. inversion HF as [|? ? V HF']; subst.
  rewrite zlen_cons. pose proof (zlen_nonneg cps).
  change (encode enc16 (cp :: cps)) with (enc16 cp ++ encode enc16 cps) in *.
  destruct (Z.ltb_spec count max).
  - replace (Z.to_nat (max - count)) with (S (Z.to_nat (max - (count + 1)))) by lia. cbn [skipn].
    assert (exists c t, enc16 cp = c :: t /\
      (if is_high_surrogate c then tl (t ++ encode enc16 cps) else t ++ encode enc16 cps) = encode enc16 cps) as (c & t & He & Ht).
    { destruct (enc16_shape _ _ V) as [[He Hc]|(c & c2 & He & Hh & Hl & Hc)]; rewrite He.
      - do 2 eexists; split; [reflexivity|]. hl.
        destruct (highb cp) eqn:E; [|reflexivity]. destruct V as [_ [|V]]; [discriminate|].
        rewrite (high_surr _ E) in V. discriminate.
      - do 2 eexists; split; [reflexivity|]. hl. rewrite Hh. reflexivity. }
    rewrite He in Hf |- *. cbn [app length] in *. cbv zeta. rewrite Ht.
    destruct cps as [|cp2 cps].
    + cbn. do 2 f_equal; [lia|]. rewrite skipn_nil. reflexivity.
    + destruct (encode enc16 (cp2 :: cps)) as [|x y] eqn:E.
      * exfalso. pose proof (enc_of_len U16 cp2) as HX. cbn [enc_of] in HX. cbn in E.
        apply app_eq_nil in E as [E _]. rewrite E in HX. cbn in HX. lia.
      * rewrite <- E in *. rewrite IH; auto; [|lia|discriminate|rewrite app_length in Hf; lia]. do 2 f_equal. lia.
  - replace (Z.to_nat (max - count)) with O by lia. cbn [skipn]. do 2 f_equal. lia.
Qed.

Lemma count_fast16_ok cps max : Forall (valid_cp false) cps -> 0 <= max ->
  count_fast16 (encode enc16 cps) max = Some (Z.min (zlen cps) max, encode enc16 (skipn (Z.to_nat max) cps)).
Proof.
  intros HF HM. unfold count_fast16. destruct cps as [|cp cps].
  { cbn. do 2 f_equal; [lia|]. rewrite skipn_nil. reflexivity. }
  destruct (encode enc16 (cp :: cps)) as [|x y] eqn:E.
  - exfalso. pose proof (enc_of_len U16 cp) as HX. cbn [enc_of] in HX. cbn in E.
    apply app_eq_nil in E as [E _]. rewrite E in HX. cbn in HX. lia.
  - rewrite <- E. rewrite ccf16_ok; auto; [|lia|discriminate]. rewrite Z.sub_0_r. reflexivity.
Qed.
