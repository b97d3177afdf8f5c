(* Exactly which invalid sequences are notified, and how often, by the pivot version. *)
From Verif Require Import Base DestModel DestProofs TransSpec PivotModel PivotProofs.

(* [m]: the decoding went no further than the first m steps (and looked at the next one) *)
Fixpoint twice (m i : Z) (l : list step) : list note :=
  match l with
  | [] => []
  | s :: more =>
      match st_stop s with
      | Some _ => note_of s more
      | None => if i <? m then note_of s more ++ (if (0 <? i) && (i mod 16 =? 0) then note_of s more else []) ++ twice m (i + 1) more
                else note_of s more
      end
  end.

Lemma twice_shift m : forall l i, 1 <= i -> twice m (i + 16) l = twice (m - 16) i l.
Proof.
  induction l as [|s l IH]; intros i Hi; [reflexivity|]. cbn [twice].
  replace (0 <? i + 16) with true by lia. replace (0 <? i) with true by lia.
  replace ((i + 16) mod 16) with (i mod 16) by (rewrite <- (Z_mod_plus_full i 1 16); f_equal; lia).
  replace (i + 16 <? m) with (i <? m - 16) by lia. replace (i + 16 + 1) with (i + 1 + 16) by lia. rewrite IH by lia. reflexivity.
Qed.
Lemma twice_block m td : forall dn i, Forall nostop dn -> 0 <= i -> i + zlen dn <= 16 -> i + zlen dn <= m ->
  twice m i (dn ++ td) = notes_of_steps dn td ++ twice m (i + zlen dn) td.
Proof.
  induction dn as [|s dn IH]; intros i HF Hi H16 Hm.
  { cbn [app notes_of_steps]. rewrite zlen_nil, Z.add_0_r. reflexivity. }
  inversion HF as [|? ? Hs HF']; subst. rewrite zlen_cons in *. pose proof (zlen_nonneg dn). cbn [app twice notes_of_steps].
  unfold nostop in Hs. rewrite Hs. replace (i <? m) with true by lia.
  replace ((0 <? i) && (i mod 16 =? 0)) with false by (rewrite Z.mod_small by lia; lia). cbn [app].
  rewrite IH by (auto; lia). rewrite <- app_assoc. do 3 f_equal. lia.
Qed.

Definition is_invalid (n : note) : bool := negb (is_unsupported n).
Lemma filter_neg_all (l : list note) : filter is_unsupported l = [] -> filter is_invalid l = l.
Proof. induction l as [|n l IH]; [reflexivity|]. cbn. unfold is_invalid. destruct (is_unsupported n); [discriminate|]. intros H. cbn. f_equal. auto. Qed.
Lemma filter_neg_none (l : list note) : filter is_unsupported l = l -> filter is_invalid l = [].
Proof.
  intros H. assert (Forall (fun n => is_unsupported n = true) l) as HF.
  { apply Forall_forall. intros n Hn. rewrite <- H in Hn. apply filter_In in Hn. tauto. }
  clear H. induction HF as [|n l Hn HF IH]; [reflexivity|]. cbn. unfold is_invalid. rewrite Hn. exact IH.
Qed.

(* the steps of the decoder that are looked at *)
Definition reach (l : list step) (e : tr_result) : Z :=
  if reason_eqb (r_reason e) RCompleted then zlen l
  else 16 * ((zlen (r_out (full l)) - zlen (r_rest e)) / 16 + 1).

Lemma decode_encode_notes P D E enc : encoding P E enc -> forall fuel l space, decoding P D l -> (length l < fuel)%nat -> 0 <= space ->
  forall r, decode_encode D E fuel (srcs l) space = Some r ->
  filter is_invalid (de_notes r) = twice (reach l (run_steps (map enc (r_out (full l))) space)) 0 l.
Proof.
  intros HE. induction fuel as [|fuel IH]; intros l space HD HF Hs r HR; [lia|].
  destruct (dec_cut P D l pivot_size HD ltac:(unfold pivot_size; lia)) as (dn & td & El & Hn & Hlen & HDf & HP & HL & Hrest & Hout & Hre).
  cbn [decode_encode] in HR. rewrite HDf in HR. cbn [obind] in HR. destruct HE as [HE1 HE2]. rewrite Hout in HR. rewrite HE1 in HR by assumption. cbn [obind] in HR.
  pose proof (conj HE1 HE2) as HE.
  assert (A1 : reason_eqb (r_reason (run_steps l pivot_size)) RUnsupported = false).
  { destruct (r_reason (run_steps l pivot_size)); try reflexivity. contradiction. }
  rewrite A1 in HR. cbn [negb assert obind] in HR.
  destruct (enc_cut P E enc (outs dn) space HE Hs) as (c1 & c2 & Ec & Ho & Hos & Hns & Hre2 & Hc).
  set (dr := run_steps l pivot_size) in *. set (er := run_steps (map enc (outs dn)) space) in *.
  assert (A2 : reason_eqb (r_reason er) RInvalid = false) by (destruct (r_reason er); try reflexivity; contradiction).
  rewrite A2 in HR. cbn [negb assert obind] in HR.
  assert (ND : filter is_invalid (r_notes dr) = r_notes dr) by (apply filter_neg_all; apply (dec_notes_free P); apply HD).
  assert (NE : filter is_invalid (r_notes er) = []) by (apply filter_neg_none; eapply enc_notes_all; exact HE).
  change pivot_size with 16 in *.
  (* what this chunk notifies *)
  assert (HB : forall m, 16 <= m \/ (zlen l <= m) -> r_reason dr <> RInsufficient \/ m = 16 -> r_notes dr = twice m 0 l).
  { intros m Hm Hx. pose proof HD as [_ HD2].
    destruct (run_cut l (decoding_stop _ _ _ HD) 16 ltac:(lia)) as (d & t & E1 & H1 & H2 & H3 & H4 & H5). fold dr in H3, H4, H5.
    rewrite E1 in HD2. apply Forall_app in HD2 as [HDd HDt]. destruct (decoding_outs P d HDd) as [_ HLd]. rewrite HLd in *.
    assert (zlen d <= m) as Hdm.
    { destruct Hm as [Hm|Hm]; [lia|]. rewrite E1, zlen_app in Hm. pose proof (zlen_nonneg t). lia. }
    rewrite E1. rewrite (twice_block m t d 0) by (auto; lia). cbn [Z.add].
    destruct (r_reason dr).
    - destruct H5 as [-> ->]. cbn [twice]. rewrite app_nil_r. reflexivity.
    - destruct Hx as [Hx|Hx]; [congruence|]. destruct H5 as (s & more & -> & N & G & ->). f_equal. cbn [twice]. unfold nostop in N. rewrite N.
      apply Forall_inv in HDt as (_ & (c & Ecc & _) & _). rewrite Ecc in G. change (zlen [c]) with 1 in G.
      replace (zlen d <? m) with false by lia. reflexivity.
    - destruct H5 as (s & more & -> & N & ->). f_equal. cbn [twice]. rewrite N. reflexivity.
    - destruct H5 as (s & more & -> & N & ->). f_equal. cbn [twice]. rewrite N. reflexivity. }
  destruct (reason_eqb (r_reason er) RCompleted) eqn:EC.
  - apply reason_eqb_spec in EC. destruct (reason_eqb (r_reason dr) RInsufficient) eqn:EI.
    + apply reason_eqb_spec in EI. rewrite EI in Hre. destruct Hre as (Hd16 & s & more & Etd & Nst & Enote).
      assert (HD' : decoding P D td) by (rewrite El in HD; eapply decoding_suffix; exact HD).
      assert (HF' : (length td < fuel)%nat).
      { rewrite El, app_length in HF. unfold zlen in Hd16. lia. }
      rewrite Hrest in HR.
      assert (Hle : zlen (r_out er) <= space) by (rewrite Ho; exact Hos).
      destruct (decode_encode D E fuel (srcs td) (space - zlen (r_out er))) as [r'|] eqn:Er; [|discriminate].
      specialize (IH td (space - zlen (r_out er)) HD' HF' ltac:(lia) r' Er). cbn [obind] in HR. injection HR as <-. cbn [de_notes].
      rewrite !filter_app, ND, NE, IH. cbn [app].
      destruct (enc_append_completed P E enc (outs dn) (r_out (full td)) space HE Hs EC) as [_ EA]. fold er in EA.
      assert (EO : r_out (full l) = outs dn ++ r_out (full td)) by (rewrite El, full_app by exact Hn; reflexivity).
      rewrite EO, EA. set (e' := run_steps (map enc (r_out (full td))) (space - zlen (r_out er))) in *.
      assert (Hreach : reach l (mk_tr (r_rest e') (r_out er ++ r_out e') (r_reason e') (r_notes er ++ r_notes e')) = reach td e' + 16).
      { unfold reach. cbn [r_reason r_rest]. rewrite EO, zlen_app, HL, Hd16. destruct (reason_eqb (r_reason e') RCompleted).
        - rewrite El, zlen_app. lia.
        - replace (16 + zlen (r_out (full td)) - zlen (r_rest e')) with (zlen (r_out (full td)) - zlen (r_rest e') + 1 * 16) by lia.
          rewrite Z_div_plus_full by lia. lia. }
      rewrite Hreach.
      assert (Hpos : 0 < reach td e').
      { unfold reach. destruct (reason_eqb (r_reason e') RCompleted) eqn:EX.
        - rewrite Etd, zlen_cons. pose proof (zlen_nonneg more). lia.
        - assert (0 <= zlen (r_out (full td)) - zlen (r_rest e')).
          { destruct (enc_cut P E enc (r_out (full td)) (space - zlen (r_out er)) HE ltac:(lia)) as (x1 & x2 & Ex & _ & _ & _ & Exr & _).
            fold e' in Exr. rewrite Exr, Ex, zlen_app. pose proof (zlen_nonneg x1). lia. }
          clear - H. lia. }
      rewrite El. rewrite (twice_block (reach td e' + 16) td dn 0) by (auto; lia). rewrite Enote. rewrite <- !app_assoc. apply (f_equal (app (notes_of_steps dn td))). rewrite ?app_nil_l.
      cbn [Z.add]. rewrite Hd16. rewrite Etd. cbn [twice]. unfold nostop in Nst. rewrite Nst.
      replace (0 <? reach (s :: more) e') with true by (rewrite Etd in Hpos; lia).
      replace (16 <? reach (s :: more) e' + 16) with true by (rewrite Etd in Hpos; lia).
      change ((0 <? 16) && (16 mod 16 =? 0)) with true. change ((0 <? 0) && (0 mod 16 =? 0)) with false. cbn [app]. f_equal. f_equal.
      change (16 + 1) with (1 + 16). rewrite twice_shift by lia. f_equal. lia.
    + injection HR as <-. cbn [de_notes]. rewrite filter_app, ND, NE, app_nil_r.
      assert (EF : full l = dr).
      { destruct (r_reason dr); first [apply Hre | discriminate EI | contradiction]. }
      rewrite EF, Hout. fold er. unfold reach. rewrite EC. cbn [reason_eqb].
      apply HB; [right; lia|]. left. intros X. rewrite X in EI. discriminate.
  - injection HR as <-. cbn [de_notes]. rewrite filter_app, ND, NE, app_nil_r.
    assert (EC' : r_reason er <> RCompleted) by (intros X; apply reason_eqb_spec in X; congruence).
    assert (EF : exists more, r_out (full l) = outs dn ++ more).
    { destruct (r_reason dr) eqn:ED.
      - destruct Hre as [_ ->]. exists []. rewrite app_nil_r. auto.
      - rewrite El, full_app by exact Hn. eexists. reflexivity.
      - rewrite Hre. exists []. rewrite app_nil_r. auto.
      - contradiction. }
    destruct EF as (more & EF).
    pose proof (enc_append_stopped P E enc (outs dn) more space HE Hs EC') as EA. cbv zeta in EA. fold er in EA.
    rewrite EF, EA. unfold reach. cbn [r_reason r_rest]. rewrite EC, EF, Hre2, !zlen_app.
    assert (zlen (outs dn) = zlen c1 + zlen c2) as Ez by (rewrite Ec, zlen_app; reflexivity).
    assert (0 < zlen c2).
    { destruct (r_reason er); [congruence| |contradiction|]; destruct Hc as (c & m & -> & _); rewrite zlen_cons; pose proof (zlen_nonneg m); lia. }
    pose proof (zlen_nonneg c1).
    replace (16 * ((zlen (outs dn) + zlen more - (zlen c2 + zlen more)) / 16 + 1)) with 16.
    + apply HB; [left; lia|right; reflexivity].
    + rewrite Z.div_small by lia. reflexivity.
Qed.
