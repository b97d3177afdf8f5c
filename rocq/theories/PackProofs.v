(* Proofs about PackModel. *)
From Verif Require Import Base PackSpec PackModel.

Section FpeInd.
  Variable P : fpe -> Prop.
  Hypothesis HF : forall c v, P (Facet c v).
  Hypothesis HPk : forall l, Forall P l -> P (Pack l).
  Hypothesis HC : forall f e, P e -> P (Constrained f e).
  Hypothesis HR : forall e, P e -> P (Ref e).
  Fixpoint fpe_rec (e : fpe) : P e :=
    match e with
    | Facet c v => HF c v
    | Pack l => HPk l ((fix go l : Forall P l := match l with [] => Forall_nil P | e :: l' => Forall_cons e (fpe_rec e) (go l') end) l)
    | Constrained f e' => HC f e' (fpe_rec e')
    | Ref e' => HR e' (fpe_rec e')
    end.
End FpeInd.

Lemma rightmost_app c t l m : rightmost c t (l ++ m) = match rightmost c t m with Some v => Some v | None => rightmost c t l end.
Proof.
  unfold rightmost. rewrite rev_app_distr. induction (rev m) as [|x r IH]; cbn [app find]; [reflexivity|]. destruct (accepts c t x); [reflexivity|exact IH].
Qed.
Lemma rightmost_under c t f l : rightmost c t (map (under f) l) = if f t then rightmost c t l else None.
Proof.
  unfold rightmost. rewrite <- map_rev. induction (rev l) as [|x r IH]; cbn [map find]; [destruct (f t); reflexivity|].
  unfold accepts at 1 3. cbn [under lf_category lf_filters forallb]. destruct (lf_category x =? c); cbn [andb]; [|exact IH]. destruct (f t); cbn [andb]; [|exact IH].
  destruct (forallb _ _); [reflexivity|exact IH].
Qed.
Lemma has_facet_ok c t e : has_facet c t e = match rightmost c t (leaves e) with Some _ => true | None => false end.
Proof.
  induction e as [c' v|l HL|f e IH|e IH] using fpe_rec.
  - cbn. unfold rightmost, accepts. cbn. rewrite andb_true_r. destruct (c' =? c); reflexivity.
  - cbn [has_facet leaves]. induction HL as [|e l He HL IH]; [reflexivity|]. cbn [fold_right flat_map]. rewrite rightmost_app, He, IH.
    destruct (rightmost c t (flat_map leaves l)), (rightmost c t (leaves e)); reflexivity.
  - cbn [has_facet leaves]. rewrite rightmost_under, IH. destruct (f t); [|reflexivity]. destruct (rightmost c t (leaves e)); reflexivity.
  - exact IH.
Qed.
Lemma get_facet_ok df c t e : has_facet c t e = true \/ (exists l, e = Pack l) ->
  get_facet df c t e = match rightmost c t (leaves e) with Some v => v | None => df c end.
Proof.
  induction e as [c' v|l HL|f e IH|e IH] using fpe_rec; intros H.
  - destruct H as [H|[l H]]; [|discriminate]. cbn in *. unfold rightmost, accepts. cbn. rewrite H. reflexivity.
  - clear H. cbn [get_facet leaves].
    match goal with |- match ?scan O l None with _ => _ end = _ => set (go := scan) end.
    assert (forall best rank, match best with None => True | Some b => (fst b < rank)%nat end ->
      option_map snd (go rank l best) = match rightmost c t (flat_map leaves l) with Some v => Some v | None => option_map snd best end) as HG.
    { induction HL as [|e l He HL IH]; intros best rank HB; [reflexivity|]. cbn [flat_map]. rewrite rightmost_app.
      change (go rank (e :: l) best) with (go (S rank) l (if has_facet c t e then best_overload (rank, get_facet df c t e) best else best)).
      destruct (has_facet c t e) eqn:EH.
      - rewrite He by (left; reflexivity). rewrite has_facet_ok in EH. destruct (rightmost c t (leaves e)) as [v|]; [|discriminate].
        assert (best_overload (rank, v) best = Some (rank, v)) as ->.
        { unfold best_overload. destruct best as [b|]; [|reflexivity]. cbn [fst]. replace (fst b <? rank)%nat with true by (symmetry; apply Nat.ltb_lt; exact HB). reflexivity. }
        rewrite IH by (cbn; lia). destruct (rightmost c t (flat_map leaves l)); reflexivity.
      - rewrite has_facet_ok in EH. destruct (rightmost c t (leaves e)) as [v|]; [discriminate|].
        rewrite IH by (destruct best; [lia|exact I]). destruct (rightmost c t (flat_map leaves l)); reflexivity. }
    specialize (HG None O I). destruct (go O l None) as [[r v]|]; cbn [option_map snd] in HG; destruct (rightmost c t (flat_map leaves l)); cbn [option_map] in HG; congruence.
  - destruct H as [H|[l H]]; [|discriminate]. cbn [get_facet leaves has_facet] in *. apply andb_true_iff in H. destruct H as [H1 H2]. rewrite rightmost_under, H1. apply IH. left. exact H2.
  - destruct H as [H|[l H]]; [|discriminate]. apply IH. left. exact H.
Qed.

Lemma leaves_constrainable cn e : well_formed_fpe cn e = true ->
  (is_constrainable cn e = true <-> Forall (fun x => cn (lf_category x) = true \/ lf_filters x <> []) (leaves e)) /\
  (is_constrainable cn e = true -> Forall (fun x => cn (lf_category x) = true) (leaves e)).
Proof.
  induction e as [c' v|l HL|f e IH|e IH] using fpe_rec; intros HW.
  - cbn. split; [split|]; intros H.
    + constructor; [left; exact H|constructor].
    + inversion H as [|? ? [H2|H2]]; subst; [exact H2|contradiction].
    + constructor; [exact H|constructor].
  - cbn [well_formed_fpe is_constrainable leaves] in *. induction HL as [|e l He HL IH]; [cbn; split; [split; constructor|constructor]|].
    cbn [fold_right flat_map] in *. apply andb_true_iff in HW. destruct HW as [W1 W2]. specialize (He W1). specialize (IH W2). rewrite andb_true_iff, !Forall_app. tauto.
  - cbn [well_formed_fpe is_constrainable leaves] in *. apply andb_true_iff in HW. destruct HW as [W1 W2]. specialize (IH W1). split; [split; [intros _|reflexivity]|intros _].
    + apply Forall_map. apply Forall_forall. intros x _. right. discriminate.
    + apply Forall_map. destruct IH as [_ IH]. specialize (IH W2). eapply Forall_impl; [|exact IH]. auto.
  - exact (IH HW).
Qed.
Lemma elements_ok l r : elements l = Some r -> r = l.
Proof.
  revert r. induction l as [|e l IH]; intros r H; cbn [elements] in H; [congruence|]. destruct (element e) as [x|] eqn:EX; [|discriminate]. cbn [obind] in H.
  destruct (elements l) as [r'|]; [|discriminate]. cbn [obind] in H. injection H as <-. rewrite (IH r' eq_refl). f_equal. destruct e; cbn in EX; congruence.
Qed.
Lemma elements_some l : Forall (fun e => forall f e', e <> Constrained f e') l -> elements l = Some l.
Proof. induction 1 as [|e l He HL IH]; [reflexivity|]. cbn [elements]. rewrite IH. destruct e; try reflexivity. exfalso. eapply He. reflexivity. Qed.
