(* C73: strings printed in other encodings, from the theorems on string printers. *)
From Coq Require Import Permutation.
From Verif Require Import Base UtfSpec UtfForms UtfLoop UtfTheorems SbcsTables SbcsModel SbcsProofs CsetModel CsetProofs Properties_Sbcs Properties_Pivot
  CharsetModel IntModel IntSpec WidthModel WCalcModel PrintModel PrintSpec PrintProofs StringModel StringSpec StringProofs SegProofs ToModel ToProofs PackSpec PackModel PackProofs
  SyntaxModel SyntaxSpec SyntaxProofs Properties_Args.
Local Open Scope Z_scope.

(* printing the string src, whose charset is a, in a destination whose charset is b, appends t *)
Definition writes_string (w : wcalc) (pol : policy) (a b : cset) (same : bool) (src t : list Z) : Prop :=
  exists pr, string_arg w pol a b same None None src no_pre = Some (no_pre, pr) /\ prints_text pr t.

Lemma writes_rendered w pol a b same src t : is_cset a -> is_cset b -> unit_text a src -> countable w a src ->
  rendered pol a b src t -> zlen t < ssize_max -> writes_string w pol a b same src t.
Proof.
  intros HA HB HU HC HR HL. destruct (segmented_exists a src HA HU) as [l HS].
  exact (proj1 (C43_plain_string w pol a b same src l t (conj HA (conj HB (conj HU (conj HC I)))) HS HR HL)).
Qed.

Lemma encoded_utf g cps : Forall2 (encoded_in (Utf g)) cps (map (enc_of g) cps).
Proof. induction cps; constructor; [reflexivity|assumption]. Qed.
Lemma concat_encode g cps : concat (map (enc_of g) cps) = encode (enc_of g) cps.
Proof. unfold encode. symmetry. apply flat_map_concat_map. Qed.
Lemma encode_len g cps : zlen cps <= zlen (encode (enc_of g) cps) <= 4 * zlen cps.
Proof.
  pose proof (outs_len_pos g (map Good cps)) as H. rewrite outs_good in H.
  replace (zlen (map Good cps)) with (zlen cps) in H by (unfold zlen; rewrite map_length; reflexivity). exact H.
Qed.

(* the code points of any text are scalar values, no more than its units *)
Lemma text_valid a src cps : is_cset a -> unit_text a src -> text_in a false src cps -> valid_text false cps /\ zlen cps <= zlen src.
Proof.
  destruct a as [f|i cs]; intros HA HU HT; cbn [text_in] in HT.
  - destruct HT as (its & HI & ->). split.
    + apply items_valid in HI. induction HI as [|x l Hx HI IH]; constructor; [|exact IH]. destruct x; [exact Hx|apply valid_FFFD].
    + apply items_length_of in HI. unfold zlen. rewrite map_length. lia.
  - split; [|assert (length cps = length src) as E; [apply (f_equal (@length _)) in HT; rewrite !map_length in HT; lia|unfold zlen; rewrite E; lia]].
    revert cps HT. induction HU as [|b src Hb HU IH]; intros [|c cps] HT; try discriminate; constructor.
    + injection HT as E _. destruct (C30_encode_decode cs b (nth_error_In _ _ HA) Hb) as (c' & E' & V & _). rewrite E in E'. injection E' as <-. exact V.
    + apply IH. injection HT as _ HT. exact HT.
Qed.

Lemma text_encode f cps : valid_text false cps -> text_in (Utf f) false (encode (enc_of f) cps) cps.
Proof.
  intros HV. exists (map Good cps). split; [apply items_encode; auto|]. rewrite map_map. symmetry. apply map_id.
Qed.
Lemma wf_encode f cps : valid_text false cps -> well_formed_in (Utf f) false (encode (enc_of f) cps).
Proof. intros HV. exists (map Good cps). split; [apply items_encode; auto|apply no_bad_good]. Qed.
Lemma units_encode f cps : valid_text false cps -> unit_text (Utf f) (encode (enc_of f) cps).
Proof. exact (encode_units f false cps). Qed.
Lemma countable_encode w f cps : valid_text false cps -> countable w (Utf f) (encode (enc_of f) cps).
Proof. intros HV. destruct w; cbn [countable]; auto using wf_encode. Qed.

Lemma same_utf f g : cset_same (Utf f) (Utf g) = true -> f = g.
Proof. destruct f, g; cbn; congruence. Qed.
Lemma rendered_utf pol f g cps : valid_text false cps -> pol <> NoTranscode ->
  rendered pol (Utf f) (Utf g) (encode (enc_of f) cps) (encode (enc_of g) cps).
Proof.
  intros HV HP. unfold rendered. destruct (copied pol (Utf f) (Utf g)) eqn:E.
  - assert (cset_same (Utf f) (Utf g) = true) as S. { destruct pol; cbn [copied] in E; try congruence. apply andb_true_iff in E. apply E. }
    apply same_utf in S. subst. reflexivity.
  - split; [intros _; apply wf_encode, HV|]. exists cps, (map (enc_of g) cps). split; [apply text_encode, HV|]. split; [apply encoded_utf|symmetry; apply concat_encode].
Qed.

(* bytes that are all mapped are the encoding of their own decoding *)
Lemma sb_encoded i cs src cps : nth_error all_sbcs i = Some cs -> unit_text (Sb i cs) src -> Forall (fun b => sb_valid cs b = true) src ->
  text_in (Sb i cs) false src cps -> Forall2 (encoded_in (Sb i cs)) cps (map (fun b => [b]) src).
Proof.
  intros Hi HU HV HT. cbn [text_in] in HT. revert cps HT. induction HU as [|b src Hb HU IH]; intros [|c cps] HT; try discriminate; cbn [map]; constructor.
  - injection HT as E _. destruct (C30_encode_decode cs b (nth_error_In _ _ Hi) Hb) as (c' & E' & V & N & R). rewrite E in E'. injection E' as <-.
    pose proof (Forall_inv HV) as Hv. cbv beta in Hv. rewrite N in Hv. apply negb_true_iff, Z.eqb_neq in Hv. exists b. split; [exact (R Hv)|]. change (2 ^ unit_bits (Sb i cs)) with 256 in Hb. destruct (Z.ltb_spec b 256); [reflexivity|lia].
  - apply IH; [exact (Forall_inv_tail HV)|]. injection HT as _ HT. exact HT.
Qed.
Lemma concat_single (src : list Z) : concat (map (fun b => [b]) src) = src.
Proof. induction src as [|x l IH]; [reflexivity|]. cbn. rewrite IH. reflexivity. Qed.
