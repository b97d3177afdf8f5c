(* C76: printed texts are well-formed. *)
From Verif Require Import Base UtfSpec UtfForms UtfTheorems GroupSpec GroupProofs DigitsSpec IntSpec IntChars WidthModel WidthProofs DigitsModel DigitsProofs DestModel DestProofs GroupModel IntModel IntProofs
  CharsetModel CsetModel CsetProofs Properties_Utf Properties_Pivot PrintSpec StringModel StringSpec TrSpec TrProofs FloatChars TextClosed WellSpec.
Local Open Scope Z_scope.

Section Well.
  Variable g : form.
  Let P := well_formed (enc_of g) false.
  Lemma well_nil : P [].
  Proof. exists []. split; [constructor|reflexivity]. Qed.
  Lemma well_app a b : P a -> P b -> P (a ++ b).
  Proof. intros (x & X1 & ->) (y & Y1 & ->). exists (x ++ y). split; [apply Forall_app; auto|unfold encode; rewrite flat_map_app; reflexivity]. Qed.
  Lemma well_enc c : valid_cp false c -> P (enc_of g c).
  Proof. intros H. exists [c]. split; [constructor; [exact H|constructor]|]. cbn [encode flat_map]. rewrite app_nil_r. reflexivity. Qed.
  Lemma ascii_valid c : 0 <= c < 128 -> valid_cp false c.
  Proof. intros H. split; [lia|right]. unfold is_surr. lia. Qed.
  Lemma enc_ascii c : 0 <= c < 128 -> enc_of g c = [c].
  Proof. intros H. destruct g; cbn [enc_of]; unfold enc8, enc16, enc32; [replace (c <? 0x80) with true by lia|replace (c <? 0x10000) with true by lia|]; reflexivity. Qed.
  Lemma well_ascii c : 0 <= c < 128 -> P [c].
  Proof. intros H. rewrite <- enc_ascii by exact H. apply well_enc, ascii_valid, H. Qed.
  Lemma well_char c : printable g c -> P (cs_encode (utf_charset g) c).
  Proof.
    intros (H1 & H2 & H3). destruct (Properties_Utf.C19_encode_char g c H1) as (_ & A & B). cbn [utf_charset cs_encode].
    destruct (Z_le_gt_dec c 0x10FFFF) as [H|H].
    - rewrite A by exact H. apply well_enc. split; [lia|right]. unfold is_surr. lia.
    - rewrite B; [apply well_enc; split; [lia|right; reflexivity]|exact H|intros E; specialize (H3 E); lia].
  Qed.
  Lemma validated c : 0 <= c < 2 ^ 32 -> cs_validate (utf_charset g) c <> -1 -> printable g c.
  Proof.
    intros H1 H2. cbn [utf_charset cs_validate] in H2. destruct (validate_of_ok g c H1) as [_ B].
    assert (H : 0 <= c <= 0x10FFFF /\ is_surr c = false).
    { destruct (is_surr c) eqn:E; [exfalso; apply H2, B; intros (_ & [C|C]); [discriminate|congruence]|]. split; [|reflexivity].
      destruct (Z_le_gt_dec c 0x10FFFF); [lia|]. exfalso. apply H2, B. intros ((_ & C) & _). lia. }
    unfold is_surr in H. split; [exact H1|]. lia.
  Qed.
  Lemma ascii_printable c : 0 <= c < 128 -> printable g c.
  Proof. intros H. split; [lia|lia]. Qed.

  (* an ASCII unit is a character on its own *)
  Lemma ascii_alone c cp : valid_cp false cp -> 0 <= c < 128 -> In c (enc_of g cp) -> enc_of g cp = [c].
  Proof.
    intros ((H1 & H1') & H2) Hc HI. destruct H2 as [H2|H2]; [discriminate|]. unfold is_surr in H2.
    destruct g; cbn [enc_of] in *; unfold enc8, enc16, enc32 in *.
    - destruct (Z.ltb_spec cp 0x80); [destruct HI as [->|[]]; reflexivity|].
      assert (M : forall k, 0 <= k mod 64) by (intros k; apply Z.mod_pos_bound; lia).
      assert (0 <= cp / 64 /\ 0 <= cp / 4096 /\ 0 <= cp / 262144) as (D1 & D2 & D3) by (repeat split; apply Z.div_pos; lia).
      pose proof (M cp). pose proof (M (cp / 64)). pose proof (M (cp / 4096)).
      destruct (cp <? 0x800); [|destruct (cp <? 0x10000)]; cbn [In] in HI; lia.
    - destruct (Z.ltb_spec cp 0x10000); [destruct HI as [->|[]]; reflexivity|].
      assert (0 <= (cp - 0x10000) / 1024) by (apply Z.div_pos; lia). assert (0 <= (cp - 0x10000) mod 1024) by (apply Z.mod_pos_bound; lia).
      cbn [In] in HI. lia.
    - destruct HI as [->|[]]; reflexivity.
  Qed.
  Lemma well_cut a c b : 0 <= c < 128 -> P (a ++ c :: b) -> P a /\ P b.
  Proof.
    intros Hc (cps & HV & E). revert a E. induction HV as [|cp cps Hcp HV IH]; intros a E; [destruct a; discriminate|].
    cbn [encode flat_map] in E. fold (encode (enc_of g) cps) in E.
    symmetry in E. destruct (app_eq_app _ _ _ _ E) as (l & [[E1 E2]|[E1 E2]]).
    - destruct l as [|x l].
      + rewrite app_nil_r in E1. cbn [app] in E2. destruct (IH []) as [_ HB]; [exact E2|]. split; [rewrite <- E1; apply well_enc, Hcp|exact HB].
      + cbn [app] in E2. injection E2 as <- E2. pose proof (ascii_alone c cp Hcp Hc) as HA. rewrite E1 in HA.
        specialize (HA ltac:(apply in_or_app; right; left; reflexivity)). destruct a as [|y a]; [|destruct a; discriminate].
        cbn [app] in HA. injection HA as ->. cbn [app] in E2. rewrite E2. split; [apply well_nil|]. exists cps. split; [exact HV|reflexivity].
    - destruct (IH l) as [HA HB]; [symmetry; exact E2|]. split; [rewrite E1; apply well_app; [apply well_enc, Hcp|exact HA]|exact HB].
  Qed.
  Lemma well_tail c b : 0 <= c < 128 -> P (c :: b) -> P b.
  Proof. intros Hc H. exact (proj2 (well_cut [] c b Hc H)). Qed.

  Lemma well_fill fill n : P fill -> P (fill_text fill n).
  Proof. apply (closed_fill P well_nil well_app). Qed.
  Lemma well_padded al fill k t : P fill -> P t -> P (padded al fill k t).
  Proof. apply (closed_padded P well_nil well_app). Qed.
  Lemma well_concat ts : Forall P ts -> P (concat ts).
  Proof. induction 1 as [|t ts H HF IH]; [apply well_nil|]. cbn [concat]. apply well_app; assumption. Qed.

  Lemma magnitude_nonneg r : 0 <= rq_bits r -> 0 <= magnitude r.
  Proof. intros H. unfold magnitude. destruct (_ =? 10); [lia|]. apply Z.mod_pos_bound. lia. Qed.
  Lemma int_closed (Q : list Z -> Prop) F gs rep f al sgn s v : Q [] -> (forall a b, Q a -> Q b -> Q (a ++ b)) -> (forall c, 0 <= c < 128 -> Q [c]) ->
    facets_ok F gs rep -> in_int sgn (sbits s) v -> align_ok (align_of al) -> opts_ok (opts_of f) ->
    Q (cs_encode (if_cs F) (al_fill (align_of al))) ->
    (forall b, if_sep F b < 0x80 \/ cs_validate (if_cs F) (if_sep F b) <> -1 -> Q (cs_encode (if_cs F) (if_sep F b))) ->
    exists p, int_print F f al sgn s v = Some p /\ Q (ops_text (pr_ops p)).
  Proof.
    intros Qn Qa Qc HF Hv Hal Ho HFl HS. set (r := request_of F gs rep f al sgn s v).
    assert (HB : 2 <= rq_base r <= 16).
    { unfold r, request_of, request. cbn [rq_base]. rewrite fmt_base_ok. destruct (fmt_base f); cbn; lia. }
    assert (HM : 0 <= magnitude r) by (apply magnitude_nonneg; unfold r, request_of, request; cbn [rq_bits]; destruct s; cbn; lia).
    assert (D : sep_ok F f r \/ ~ sep_ok F f r) by (unfold sep_ok; lia). destruct D as [D|D].
    - destruct (int_print_ok F gs rep f al sgn s v HF Hv Hal Ho D) as (p & E & (T & _) & _). exists p. split; [exact E|]. rewrite T.
      apply (closed_int Q Qn Qa Qc); [exact HB|exact HM|exact HFl|]. fold r.
      destruct D as [D|[D|D]]; [left; apply HS; auto|left; apply HS; auto|right; exact D].
    - destruct (int_print_bad_sep F gs rep f al sgn s v HF Hv Hal Ho D) as (p & E & (T & _) & _). exists p. split; [exact E|]. rewrite T.
      apply (closed_int Q Qn Qa Qc); [exact HB|exact HM|exact HFl|left; exact Qn].
  Qed.
  Lemma int_well F gs rep f al sgn s v : facets_ok F gs rep -> if_cs F = utf_charset g -> in_int sgn (sbits s) v -> align_ok (align_of al) -> opts_ok (opts_of f) ->
    printable g (al_fill (align_of al)) -> exists p, int_print F f al sgn s v = Some p /\ P (ops_text (pr_ops p)).
  Proof.
    intros HF EC Hv Hal Ho Hp. apply (int_closed P F gs rep); auto using well_nil, well_app, well_ascii; rewrite EC; [apply well_char, Hp|].
    intros b Hb. pose proof (fk_sep _ _ _ HF b) as Hs. apply well_char. destruct Hb as [Hb|Hb]; [apply ascii_printable; lia|apply validated; assumption].
  Qed.
  Lemma pieces_well : (forall pos s ps, parses pos s ps -> P s -> Forall (fun i => match i with Text t => P t | _ => True end) ps) /\
    (forall pos s ps, field pos s ps -> P s -> Forall (fun i => match i with Text t => P t | _ => True end) ps).
  Proof.
    assert (B1 : 0 <= open_brace < 128) by (unfold open_brace; lia). assert (B2 : 0 <= close_brace < 128) by (unfold close_brace; lia).
    assert (B3 : 0 <= dash < 128) by (unfold dash; lia).
    apply (tr_ind (fun _ s ps _ => P s -> Forall (fun i => match i with Text t => P t | _ => True end) ps)
                  (fun _ s ps _ => P s -> Forall (fun i => match i with Text t => P t | _ => True end) ps)); intros.
    all: repeat match goal with
      | H : P (_ ++ _ ++ close_brace :: _) |- _ => rewrite app_assoc in H
      | H : P (dash :: _ ++ close_brace :: _) |- _ => apply well_tail in H; [|exact B3]
      | H : P (open_brace :: _ ++ open_brace :: _) |- _ => apply well_tail in H; [|exact B1]
      | H : P (?x :: ?c ++ close_brace :: _) |- _ => change (P ((x :: c) ++ close_brace :: r)) in H
      | H : P (_ ++ close_brace :: _) |- _ => apply well_cut in H; [destruct H|exact B2]
      | H : P (_ ++ open_brace :: _) |- _ => apply well_cut in H; [destruct H|exact B1]
      | H : P (close_brace :: _) |- _ => apply well_tail in H; [|exact B2]
      end.
    all: repeat constructor; auto.
    change (P ([open_brace] ++ s)). apply well_app; [apply well_ascii, B1|assumption].
  Qed.
  Lemma items_well ts n : Forall P ts -> forall ps next, Forall (fun i => match i with Text t => P t | _ => True end) ps -> P (items_text (Utf g) ts (resolve n next ps)).
  Proof.
    intros HT. assert (HI : forall next i, P (item_text (Utf g) ts (refer n next i))).
    { intros k a. unfold refer. destruct (k <? n); cbn [item_text replacement_text]; [|apply well_enc; split; [lia|right; reflexivity]].
      destruct (nth_in_or_default (Z.to_nat k) ts []) as [H| ->]; [|apply well_nil]. rewrite Forall_forall in HT. apply HT, H. }
    induction ps as [|i ps IH]; intros next HP; [apply well_nil|]. inversion HP as [|? ? Hi HP']; subst.
    destruct i; cbn [resolve]; unfold items_text; cbn [map concat]; apply well_app; try apply (IH _ HP'); [exact Hi|apply HI..].
  Qed.
End Well.

From Verif Require Import FloatSpec FloatModel FloatNum FloatArith FloatProofs FloatSafe FloatAlways FloatRead FloatArgs.
Lemma float_well g F gs rep f al x : ffacets_ok F gs rep -> fk_charset F = utf_charset g -> fk_bits F = bits_of g -> align_ok al -> value_ok x ->
  -1 <= ff_precision f <= 2 ^ 30 -> ff_pad0 f <= 2 ^ 30 -> printable g (al_fill al) -> printable g (float_point F f) ->
  exists p, punct_double F f al x = Some p /\ well_formed (enc_of g) false (ops_text (pr_ops p)).
Proof.
  intros HF EC EB HA HV H1 H2 Pf Pp. pose proof (fo_sep _ _ _ HF) as Hs.
  assert (Ps : float_groups F gs f <> [] -> well_formed (enc_of g) false (cs_encode (fk_charset F) (fk_thousands F))).
  { intros Hg. rewrite EC. apply well_char, validated; [exact Hs|]. intros C. apply Hg. unfold float_groups. rewrite EC, C, andb_false_r. reflexivity. }
  destruct (always_closed (well_formed (enc_of g) false) (well_nil g) (well_app g) (well_ascii g) F gs rep f al x HF HA HV H1 H2) as (p & E & _ & T).
  - rewrite EC. apply well_char, Pf.
  - rewrite EC. apply well_char, Pp.
  - exact Ps.
  - intros Hg Hl. rewrite <- (utf_separator_fine F gs f g EC EB Hs Hg Hl). exact (Ps Hg).
  - eauto.
Qed.
