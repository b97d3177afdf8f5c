(* Proofs about reading integers back. *)
From Verif Require Import Base WidthModel DestModel GroupSpec GroupModel DigitsSpec DigitsModel DigitsProofs CharsetModel IntSpec IntModel IntProofs IntReadSpec.

Lemma after_app p u : after p (p ++ u) = Some u.
Proof. induction p as [|a p IH]; [destruct u; reflexivity|]. cbn [app after]. rewrite Z.eqb_refl. exact IH. Qed.
Lemma after_nil u : after [] u = Some u.
Proof. destruct u; reflexivity. Qed.
Lemma without_fills fill n : forall fuel u, (n <= fuel)%nat -> (forall k, fill <> [] -> without k fill u = u) ->
  without fuel fill (concat (repeat fill n) ++ u) = u.
Proof.
  induction n as [|n IH]; intros fuel u Hf Hu; cbn [repeat concat app].
  - destruct fill as [|a p]; [|apply Hu; discriminate]. induction fuel as [|fuel IF]; [reflexivity|]. cbn [without]. rewrite after_nil. apply IF. lia.
  - destruct fuel as [|fuel]; [lia|]. cbn [without]. rewrite <- app_assoc, after_app. apply IH; [lia|exact Hu].
Qed.
Lemma without_stops a p c u : a <> c -> forall k, without k (a :: p) (c :: u) = c :: u.
Proof. intros H [|k]; [reflexivity|]. cbn [without after]. destruct (Z.eqb_spec a c); [contradiction|reflexivity]. Qed.
Lemma without_nil a p k : without k (a :: p) [] = [].
Proof. destruct k; reflexivity. Qed.
Lemma fill_concat_length (fill : list Z) n : fill <> [] -> (n <= length (concat (repeat fill n)))%nat.
Proof. intros H. induction n as [|n IH]; [cbn; lia|]. cbn [repeat concat]. rewrite app_length. destruct fill; [congruence|cbn [length]; lia]. Qed.

(* ---- digits ---- *)
Lemma digit_char_in low base d : 2 <= base <= 16 -> 0 <= d < base -> digit_in base (digit_char low d) = Some d.
Proof.
  intros Hb Hd. unfold digit_in, digit_char, digit_of.
  destruct (Z.ltb_spec d 10).
  - replace ((48 <=? 48 + d) && (48 + d <=? 57)) with true by lia. replace (48 + d - 48) with d by lia. replace (d <? base) with true by lia. reflexivity.
  - destruct low.
    + replace ((48 <=? 97 + (d - 10)) && (97 + (d - 10) <=? 57)) with false by lia. replace ((97 <=? 97 + (d - 10)) && (97 + (d - 10) <=? 122)) with true by lia.
      replace (97 + (d - 10) - 87) with d by lia. replace (d <? base) with true by lia. reflexivity.
    + replace ((48 <=? 65 + (d - 10)) && (65 + (d - 10) <=? 57)) with false by lia. replace ((97 <=? 65 + (d - 10)) && (65 + (d - 10) <=? 122)) with false by lia.
      replace ((65 <=? 65 + (d - 10)) && (65 + (d - 10) <=? 90)) with true by lia. replace (65 + (d - 10) - 55) with d by lia. replace (d <? base) with true by lia. reflexivity.
Qed.
Lemma neutral_in base c : neutral c -> digit_in base c = None.
Proof. intros (H & _). unfold digit_in. rewrite H. reflexivity. Qed.
Lemma zero_in base : 2 <= base <= 16 -> digit_in base 48 = Some 0.
Proof. intros H. change 48 with (digit_char false 0). apply digit_char_in; lia. Qed.

(* the text after the digits: units that are no digits *)
Definition quiet (u : list Z) : Prop := Forall neutral u.
Lemma quiet_stops base sep r : quiet r -> forall fuel v, read_digits_sep fuel base sep v r = (v, r).
Proof.
  intros Hr fuel v. destruct fuel as [|fuel]; [reflexivity|]. cbn [read_digits_sep]. destruct r as [|c r]; [reflexivity|].
  rewrite (neutral_in base c) by (inversion Hr; assumption).
  assert (HQ : forall s w, after s (c :: r) = Some w -> quiet w).
  { intros s. generalize (c :: r) Hr. induction s as [|a s IH]; intros l Hl w E; [rewrite after_nil in E; injection E as <-; exact Hl|].
    destruct l as [|b l]; [discriminate|]. cbn [after] in E. destruct (a =? b); [|discriminate]. apply (IH l); [inversion Hl; assumption|exact E]. }
  destruct (after sep (c :: r)) as [[|c' u'']|] eqn:E; try reflexivity.
  rewrite (neutral_in base c') by (specialize (HQ _ _ E); inversion HQ; assumption). reflexivity.
Qed.
Definition accumb (base N : Z) (ds : list Z) : Z := fold_left (fun a d => a * base + d) ds N.
Lemma read_grouped_sep low base sep B : 2 <= base <= 16 -> quiet sep -> forall ds fuel v r, Forall (fun d => 0 <= d < base) ds -> quiet r -> (length ds <= fuel)%nat ->
  forall first, (first = [] \/ first = sep) -> ds <> [] ->
  read_digits_sep fuel base sep v (first ++ grouped B sep (map (digit_char low) ds) ++ r) = (accumb base v ds, r).
Proof.
  intros Hb Hs. induction ds as [|d ds IH]; intros fuel v r Hd Hr Hf first Hfi HN; [congruence|]. clear HN.
  inversion Hd as [|d' ds' Hd1 Hd2]; subst. destruct fuel as [|fuel]; [cbn in Hf; lia|]. cbn [length] in Hf.
  set (sp := if (0 <? zlen (map (digit_char low) ds)) && B (zlen (map (digit_char low) ds)) then sep else []).
  assert (HR : read_digits_sep fuel base sep (v * base + d) (sp ++ grouped B sep (map (digit_char low) ds) ++ r) = (accumb base v (d :: ds), r)).
  { destruct ds as [|d2 ds].
    - unfold sp. cbn [map grouped zlen length app]. change (zlen []) with 0. cbn [Z.ltb Z.compare andb app]. rewrite quiet_stops by exact Hr. reflexivity.
    - rewrite (IH fuel (v * base + d) r Hd2 Hr ltac:(lia) sp); [reflexivity| |discriminate]. unfold sp. destruct (_ && _); auto. }
  assert (HT : grouped B sep (map (digit_char low) (d :: ds)) ++ r = digit_char low d :: sp ++ grouped B sep (map (digit_char low) ds) ++ r).
  { cbn [map grouped app]. fold sp. rewrite <- app_assoc. reflexivity. }
  rewrite HT. cbn [read_digits_sep]. destruct Hfi as [-> | ->].
  - cbn [app]. rewrite digit_char_in by assumption. exact HR.
  - destruct sep as [|c0 sep0] eqn:Es; [cbn [app]; rewrite digit_char_in by assumption; exact HR|]. rewrite <- Es in *. 
    assert (E0 : exists w, sep ++ digit_char low d :: sp ++ grouped B sep (map (digit_char low) ds) ++ r = c0 :: w) by (rewrite Es; eexists; reflexivity).
    destruct E0 as (w & Ew). rewrite Ew. assert (neutral c0) as N0 by (rewrite Es in Hs; inversion Hs; assumption). rewrite (neutral_in base c0 N0). rewrite <- Ew, after_app.
    rewrite digit_char_in by assumption. exact HR.
Qed.

Lemma grouped_length B sep (ds : list Z) : (length ds <= length (grouped B sep ds))%nat.
Proof. induction ds as [|d ds IH]; [cbn; lia|]. cbn [grouped length]. rewrite app_length. lia. Qed.
Lemma read_zeros base sep low B : 2 <= base <= 16 -> quiet sep -> forall k ds fuel r, Forall (fun d => 0 <= d < base) ds -> quiet r -> (k + length ds <= fuel)%nat -> ds <> [] ->
  read_digits_sep fuel base sep 0 (repeat 48 k ++ grouped B sep (map (digit_char low) ds) ++ r) = (accumb base 0 ds, r).
Proof.
  intros Hb Hs. induction k as [|k IH]; intros ds fuel r Hd Hr Hf HN.
  - cbn [repeat app]. apply (read_grouped_sep low base sep B Hb Hs ds fuel 0 r Hd Hr Hf []); [left; reflexivity|exact HN].
  - destruct fuel as [|fuel]; [lia|]. cbn [repeat app read_digits_sep]. rewrite zero_in by exact Hb. cbn [Z.mul Z.add]. apply IH; try assumption. lia.
Qed.
Definition unit_ok (base c : Z) : Prop := (exists d, digit_in base c = Some d) \/ neutral c.
Lemma quiet_units base u : quiet u -> Forall (unit_ok base) u.
Proof. intros H. eapply Forall_impl; [|exact H]. intros c Hc. right. exact Hc. Qed.
Lemma grouped_units low base sep B : 2 <= base <= 16 -> quiet sep -> forall ds, Forall (fun d => 0 <= d < base) ds -> Forall (unit_ok base) (grouped B sep (map (digit_char low) ds)).
Proof.
  intros Hb Hs ds. induction 1 as [|d ds Hd Hds IH]; [constructor|]. cbn [map grouped]. constructor; [left; exists d; apply digit_char_in; assumption|].
  apply Forall_app. split; [|exact IH]. destruct (_ && _); [apply quiet_units; exact Hs|constructor].
Qed.
(* zeros, digits, and units that are no digits *)
Lemma body_reads low base sep B k ds r : 2 <= base <= 16 -> quiet sep -> Forall (fun d => 0 <= d < base) ds -> quiet r -> ds <> [] ->
  let u := repeat 48 k ++ grouped B sep (map (digit_char low) ds) ++ r in
  exists c w d, u = c :: w /\ digit_in base c = Some d /\ read_digits_sep (length w) base sep d w = (accumb base 0 ds, r) /\ Forall (unit_ok base) u.
Proof.
  intros Hb Hs Hd Hr HN u.
  assert (HU : Forall (unit_ok base) u).
  { unfold u. apply Forall_app. split; [apply Forall_forall; intros c Hc; apply repeat_spec in Hc; subst; left; exists 0; apply zero_in; exact Hb|].
    apply Forall_app. split; [apply grouped_units; assumption|apply quiet_units; exact Hr]. }
  pose proof (grouped_length B sep (map (digit_char low) ds)) as GL. rewrite map_length in GL.
  unfold u in *. destruct k as [|k].
  - cbn [repeat app] in *. destruct ds as [|d ds]; [congruence|]. inversion Hd as [|d' ds' Hd1 Hd2]; subst.
    assert (R := read_grouped_sep low base sep B Hb Hs (d :: ds) (S (length ((if (0 <? zlen (map (digit_char low) ds)) && B (zlen (map (digit_char low) ds)) then sep else []) ++ grouped B sep (map (digit_char low) ds) ++ r))) 0 r Hd Hr).
    cbn [map grouped app] in *. rewrite <- app_assoc in *.
    exists (digit_char low d), ((if (0 <? zlen (map (digit_char low) ds)) && B (zlen (map (digit_char low) ds)) then sep else []) ++ grouped B sep (map (digit_char low) ds) ++ r), d.
    split; [reflexivity|]. split; [apply digit_char_in; assumption|]. split; [|exact HU].
    specialize (R ltac:(cbn [length] in *; rewrite !app_length in *; lia) [] (or_introl eq_refl) HN). cbn [app read_digits_sep] in R. rewrite digit_char_in in R by assumption. exact R.
  - cbn [repeat app] in *. eexists 48, _, 0. split; [reflexivity|]. split; [apply zero_in; exact Hb|]. split; [|exact HU].
    apply read_zeros; try assumption. rewrite !app_length, repeat_length. lia.
Qed.
(* the prefix of the base *)
Lemma no_prefix base c c' w : Forall (unit_ok base) (c :: c' :: w) ->
  (c =? 48) && (if base =? 16 then (c' =? 120) || (c' =? 88) else if base =? 2 then (c' =? 98) || (c' =? 66) else false) = false.
Proof.
  intros H. inversion H as [|? ? _ H']; subst. inversion H' as [|? ? Hc _]; subst. apply andb_false_intro2.
  assert (X : forall b l, (forall z, In z l -> digit_of z <> None /\ digit_in b z = None) -> base = b -> ~ In c' l).
  { intros b l Hl -> Hi. destruct (Hl c' Hi) as [A1 A2]. destruct Hc as [(d & E)|(E & _)]; congruence. }
  destruct (Z.eqb_spec base 16) as [E|_].
  - specialize (X 16 [120; 88]). destruct (Z.eqb_spec c' 120) as [->|]; [exfalso; apply X; [|exact E|cbn; auto]|]; [intros z [<-|[<-|[]]]; split; [discriminate|reflexivity|discriminate|reflexivity]|].
    destruct (Z.eqb_spec c' 88) as [->|]; [exfalso; apply X; [|exact E|cbn; auto]; intros z [<-|[<-|[]]]; split; [discriminate|reflexivity|discriminate|reflexivity]|reflexivity].
  - destruct (Z.eqb_spec base 2) as [E|_]; [|reflexivity]. specialize (X 2 [98; 66]).
    destruct (Z.eqb_spec c' 98) as [->|]; [exfalso; apply X; [|exact E|cbn; auto]; intros z [<-|[<-|[]]]; split; [discriminate|reflexivity|discriminate|reflexivity]|].
    destruct (Z.eqb_spec c' 66) as [->|]; [exfalso; apply X; [|exact E|cbn; auto]; intros z [<-|[<-|[]]]; split; [discriminate|reflexivity|discriminate|reflexivity]|reflexivity].
Qed.

(* ---- the whole text ---- *)
Lemma quiet_fills fill n : quiet fill -> quiet (concat (repeat fill n)).
Proof. intros H. induction n as [|n IH]; [constructor|]. cbn [repeat concat]. apply Forall_app. split; assumption. Qed.
(* [sgn]: nothing, '-' or '+'; [pre]: nothing, or the prefix of the base *)
Lemma integer_reads low base sep fill B k ds nl nr sgn pre : 2 <= base <= 16 -> quiet sep -> quiet fill -> Forall (fun d => 0 <= d < base) ds -> ds <> [] ->
  sgn = [] \/ sgn = [45] \/ sgn = [43] ->
  pre = [] \/ (base = 16 /\ (pre = [48; 120] \/ pre = [48; 88])) \/ (base = 2 /\ (pre = [48; 98] \/ pre = [48; 66])) ->
  read_integer base sep fill (concat (repeat fill nl) ++ (sgn ++ pre ++ repeat 48 k ++ grouped B sep (map (digit_char low) ds)) ++ concat (repeat fill nr)) =
    Some (if match sgn with c :: _ => c =? 45 | [] => false end then - accumb base 0 ds else accumb base 0 ds).
Proof.
  intros Hb Hs Hq Hd HN Hsg Hpr. set (r := concat (repeat fill nr)). assert (Hr : quiet r) by (apply quiet_fills; exact Hq).
  destruct (body_reads low base sep B k ds r Hb Hs Hd Hr HN) as (c & w & d & EU & Ec & ER & HU). cbv zeta in EU, HU.
  rewrite <- !app_assoc. rewrite EU in HU |- *.
  set (u1 := sgn ++ pre ++ c :: w).
  (* the first unit is not neutral *)
  assert (H1 : exists c1 w1, u1 = c1 :: w1 /\ ~ neutral c1).
  { unfold u1. assert (NC : ~ neutral c) by (intros (E & _); unfold digit_in in Ec; rewrite E in Ec; discriminate).
    assert (N48 : ~ neutral 48) by (intros (E & _); discriminate).
    destruct Hsg as [-> |[-> | ->]]; cbn [app]; [|eexists _, _; split; [reflexivity|]; intros (_ & E & _); congruence|eexists _, _; split; [reflexivity|]; intros (_ & _ & E); congruence].
    destruct Hpr as [-> |[[_ [-> | ->]]|[_ [-> | ->]]]]; cbn [app]; eauto. }
  destruct H1 as (c1 & w1 & E1 & NN1).
  assert (HW : forall j, fill <> [] -> without j fill u1 = u1).
  { intros j HF. destruct fill as [|a fill']; [congruence|]. rewrite E1. apply without_stops. intros ->. apply NN1. inversion Hq; assumption. }
  unfold read_integer. fold u1.
  assert (HL : without (length (concat (repeat fill nl) ++ u1)) fill (concat (repeat fill nl) ++ u1) = u1).
  { destruct fill as [|a fill'] eqn:Ef.
    - assert (Z0 : concat (repeat (@nil Z) nl) = []) by (clear; induction nl; [reflexivity|assumption]). rewrite Z0. cbn [app].
      generalize (length u1). intros j. induction j as [|j IH]; [reflexivity|]. cbn [without]. rewrite after_nil. exact IH.
    - rewrite <- Ef in *. apply without_fills; [|exact HW]. rewrite app_length. pose proof (fill_concat_length fill nl ltac:(rewrite Ef; discriminate)). lia. }
  rewrite HL.
  assert (HT : without (length r) fill r = []).
  { unfold r. destruct fill as [|a fill'] eqn:Ef.
    - assert (Z0 : concat (repeat (@nil Z) nr) = []) by (clear; induction nr; [reflexivity|assumption]). rewrite Z0. reflexivity.
    - rewrite <- Ef in *. rewrite <- (app_nil_r (concat (repeat fill nr))) at 2. apply without_fills; [apply fill_concat_length; rewrite Ef; discriminate|].
      intros j _. rewrite Ef. apply without_nil. }
  assert (NS : (c =? 45) || (c =? 43) = false).
  { destruct (Z.eqb_spec c 45) as [->|]; [discriminate Ec|]. destruct (Z.eqb_spec c 43) as [->|]; [discriminate Ec|]. reflexivity. }
  assert (HS : match u1 with c :: w => if (c =? 45) || (c =? 43) then w else u1 | [] => [] end = pre ++ c :: w).
  { unfold u1. destruct Hsg as [-> |[-> | ->]]; cbn [app Z.eqb Pos.eqb orb]; [|reflexivity|reflexivity].
    destruct Hpr as [-> |[[_ [-> | ->]]|[_ [-> | ->]]]]; cbn [app Z.eqb Pos.eqb orb]; try reflexivity. rewrite NS. reflexivity. }
  rewrite HS.
  assert (HG : match u1 with c :: _ => c =? 45 | [] => false end = match sgn with c :: _ => c =? 45 | [] => false end).
  { unfold u1. destruct Hsg as [-> |[-> | ->]]; cbn [app]; try reflexivity. destruct Hpr as [-> |[[_ [-> | ->]]|[_ [-> | ->]]]]; cbn [app]; try reflexivity.
    destruct (Z.eqb_spec c 45) as [->|]; [discriminate NS|reflexivity]. }
  rewrite HG.
  assert (HP : match pre ++ c :: w with
            | z :: x :: w' => if (z =? 48) && (if base =? 16 then (x =? 120) || (x =? 88) else if base =? 2 then (x =? 98) || (x =? 66) else false) then w' else pre ++ c :: w
            | _ => pre ++ c :: w
            end = c :: w).
  { destruct Hpr as [-> |[[-> [-> | ->]]|[-> [-> | ->]]]]; cbn [app]; try reflexivity. destruct w as [|c' w']; [reflexivity|]. rewrite (no_prefix base c c' w' HU). reflexivity. }
  rewrite HP, Ec, ER, HT. reflexivity.
Qed.

Lemma accumb_digits base v : 2 <= base -> 0 <= v -> accumb base 0 (digits base v) = v.
Proof. intros Hb H. destruct (repr_digits base v Hb H) as (_ & V & _). exact V. Qed.
Lemma grouped_never sep sep' ds : grouped (fun _ => false) sep ds = grouped (fun _ => false) sep' ds.
Proof. induction ds as [|d ds IH]; [reflexivity|]. cbn [grouped]. rewrite andb_false_r. cbn [app]. rewrite IH. reflexivity. Qed.
Lemma text_reads r sep : In (rq_base r) [2; 8; 10; 16] -> 0 <= magnitude r -> quiet sep -> quiet (rq_fill r) ->
  (rq_boundary r = (fun _ => false) \/ sep = rq_sep r) -> rq_sign r <> FillInsteadOfPositive ->
  read_integer (rq_base r) sep (rq_fill r) (int_text r) = Some (if rq_base r =? 10 then rq_value r else magnitude r).
Proof.
  intros Hb Hm Hs Hf HS Hsg. assert (Hb2 : 2 <= rq_base r <= 16) by (destruct Hb as [<-|[<-|[<-|[<-|[]]]]]; lia).
  destruct (repr_digits (rq_base r) (magnitude r) ltac:(lia) Hm) as (F & _ & NE & _).
  assert (EG : grouped (rq_boundary r) (rq_sep r) (map (digit_char (low_digits (rq_case r))) (mag_digits r)) =
               grouped (rq_boundary r) sep (map (digit_char (low_digits (rq_case r))) (mag_digits r))).
  { destruct HS as [->| ->]; [apply grouped_never|reflexivity]. }
  unfold int_text, padded, fill_text, int_content. rewrite EG. unfold mag_digits.
  set (nl := Z.to_nat (left_fill (rq_align r) (int_missing r))). set (nr := Z.to_nat (right_fill (rq_align r) (int_missing r))).
  set (k := Z.to_nat (int_zeros r)). clearbody nl nr k. set (low := low_digits (rq_case r)).
  pose proof (fun k' sgn pre => integer_reads low (rq_base r) sep (rq_fill r) (rq_boundary r) k' (digits (rq_base r) (magnitude r)) nl nr sgn pre Hb2 Hs Hf F NE) as T.
  rewrite accumb_digits in T by lia.
  unfold int_prefix. destruct (Z.eqb_spec (rq_base r) 10) as [E10|N10].
  - assert (EM : magnitude r = Z.abs (rq_value r)) by (unfold magnitude; rewrite E10; reflexivity).
    destruct (Z.ltb_spec (rq_value r) 0).
    + specialize (T k [45] [] (or_intror (or_introl eq_refl)) (or_introl eq_refl)). cbn [app Z.eqb Pos.eqb] in T. cbn [app]. rewrite T. f_equal. lia.
    + assert (P : (if rq_signed r then match rq_sign r with NegativeOnly => [] | PositiveAlso => [43] | FillInsteadOfPositive => rq_fill r end else []) = [] \/
                  (if rq_signed r then match rq_sign r with NegativeOnly => [] | PositiveAlso => [43] | FillInsteadOfPositive => rq_fill r end else []) = [43]).
      { destruct (rq_signed r); [|left; reflexivity]. destruct (rq_sign r); [left; reflexivity|right; reflexivity|congruence]. }
      destruct P as [-> | ->].
      * specialize (T k [] [] (or_introl eq_refl) (or_introl eq_refl)). cbn [app] in T |- *. rewrite T. f_equal. lia.
      * specialize (T k [43] [] (or_intror (or_intror eq_refl)) (or_introl eq_refl)). cbn [app Z.eqb Pos.eqb] in T |- *. rewrite T. f_equal. lia.
  - destruct (negb (rq_showbase r)).
    { specialize (T k [] [] (or_introl eq_refl) (or_introl eq_refl)). cbn [app] in T |- *. exact T. }
    destruct (Z.eqb_spec (rq_base r) 8) as [E8|N8].
    { destruct (magnitude r =? 0).
      - specialize (T k [] [] (or_introl eq_refl) (or_introl eq_refl)). cbn [app] in T |- *. exact T.
      - specialize (T (S k) [] [] (or_introl eq_refl) (or_introl eq_refl)). cbn [app repeat] in T |- *. exact T. }
    destruct (Z.eqb_spec (rq_base r) 16) as [E16|N16].
    + specialize (T k [] [48; if low_prefix (rq_case r) then 120 else 88] (or_introl eq_refl)). cbn [app] in T |- *. apply T. right; left. split; [exact E16|]. destruct (low_prefix (rq_case r)); auto.
    + specialize (T k [] [48; if low_prefix (rq_case r) then 98 else 66] (or_introl eq_refl)). cbn [app] in T |- *. apply T. right; right.
      split; [destruct Hb as [E|[E|[E|[E|[]]]]]; congruence|]. destruct (low_prefix (rq_case r)); auto.
Qed.
Lemma shown_injective f s (sgn : bool) v v' : in_int sgn (sbits s) v -> in_int sgn (sbits s) v' ->
  (if o_base (opts_of f) =? 10 then v' else v' mod 2 ^ sbits s) = (if o_base (opts_of f) =? 10 then v else v mod 2 ^ sbits s) -> v = v'.
Proof.
  intros H H' E. destruct (o_base (opts_of f) =? 10); [congruence|].
  assert (P : 0 < 2 ^ (sbits s - 1) /\ 2 ^ sbits s = 2 * 2 ^ (sbits s - 1)) by (destruct s; cbn; lia). destruct P as [P1 P2].
  assert (D : exists q, v' - v = 2 ^ sbits s * q).
  { pose proof (Z.div_mod v (2 ^ sbits s) ltac:(lia)). pose proof (Z.div_mod v' (2 ^ sbits s) ltac:(lia)). exists (v' / 2 ^ sbits s - v / 2 ^ sbits s). lia. }
  destruct D as (q & D). unfold in_int in *. assert (- 2 ^ sbits s < v' - v < 2 ^ sbits s) by (destruct sgn; lia).
  assert (q = 0) by nia. subst q. lia.
Qed.
Lemma pointer_reads lc a : 0 <= a -> read_integer 16 [] [] ([48; if low_prefix lc then 120 else 88] ++ map (digit_char (low_digits lc)) (digits 16 a)) = Some a.
Proof.
  intros Ha. destruct (repr_digits 16 a ltac:(lia) Ha) as (F & _ & NE & _).
  pose proof (integer_reads (low_digits lc) 16 [] [] (fun _ => false) 0 (digits 16 a) 0 0 [] [48; if low_prefix lc then 120 else 88] ltac:(lia) ltac:(constructor) ltac:(constructor) F NE (or_introl eq_refl)) as T.
  cbn [repeat concat app] in T. rewrite app_nil_r, accumb_digits in T by lia.
  assert (G : forall l, grouped (fun _ => false) [] l = l) by (induction l as [|x l IH]; [reflexivity|]; cbn [grouped]; rewrite andb_false_r; cbn [app]; rewrite IH; reflexivity).
  rewrite G in T. apply T. right; left. split; [reflexivity|]. destruct (low_prefix lc); auto.
Qed.
