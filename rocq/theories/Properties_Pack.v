(* C53: facets packs.  leaves, accepts, rightmost: PackSpec. *)
From Verif Require Import Base PackSpec PackModel PackProofs.

(* get_facet: the rightmost facet of the category whose filters all accept the type, else the default *)
Theorem C53_get_facet : forall get_default category tag l,
  get_facet get_default category tag (Pack l) =
  match rightmost category tag (flat_map leaves l) with Some v => v | None => get_default category end.
Proof. intros df c t l. apply (get_facet_ok df c t (Pack l)). right. exists l. reflexivity. Qed.
(* what rightmost is *)
Theorem C53_rightmost : forall category tag l v, rightmost category tag l = Some v <->
  exists l1 x l2, l = l1 ++ x :: l2 /\ lf_value x = v /\
    lf_category x = category /\ (forall f, In f (lf_filters x) -> f tag = true) /\
    forall y, In y l2 -> ~ (lf_category y = category /\ (forall f, In f (lf_filters y) -> f tag = true)).
Proof.
  intros c t l v.
  assert (forall x, accepts c t x = true <-> lf_category x = c /\ (forall f, In f (lf_filters x) -> f t = true)) as HA.
  { intros x. unfold accepts. rewrite andb_true_iff, Z.eqb_eq, forallb_forall. tauto. }
  split.
  - revert v. induction l as [|x l IH] using rev_ind; intros v H; [discriminate|].
    unfold rightmost in H. rewrite rev_app_distr in H. cbn [rev app find] in H. destruct (accepts c t x) eqn:EX.
    + cbn in H. injection H as <-. exists l, x, []. apply HA in EX. split; [reflexivity|]. split; [reflexivity|]. split; [apply EX|]. split; [apply EX|]. intros y [].
    + destruct (IH v H) as (l1 & z & l2 & -> & H1 & H2 & H3 & H4). exists l1, z, (l2 ++ [x]). split; [rewrite <- app_assoc; reflexivity|]. repeat (split; [assumption|]).
      intros y HI. apply in_app_iff in HI. destruct HI as [HI|[<-|[]]]; [exact (H4 y HI)|]. intros H5. apply HA in H5. congruence.
  - intros (l1 & x & l2 & -> & H1 & H2 & H3 & H4). rewrite rightmost_app. change (x :: l2) with ([x] ++ l2). rewrite rightmost_app.
    assert (rightmost c t l2 = None) as ->.
    { clear -H4 HA. induction l2 as [|y l2 IH] using rev_ind; [reflexivity|]. unfold rightmost. rewrite rev_app_distr. cbn [rev app find].
      destruct (accepts c t y) eqn:E; [apply HA in E; exfalso; apply (H4 y); [apply in_or_app; right; left; reflexivity|exact E]|]. apply IH. intros z HZ. apply H4. apply in_or_app. left. exact HZ. }
    unfold rightmost. cbn [rev app find]. destruct (accepts c t x) eqn:E; [cbn; congruence|]. assert (accepts c t x = true) by (apply HA; auto). congruence.
Qed.
(* nesting packs does not matter *)
Theorem C53_nesting : forall get_default category tag l m r,
  get_facet get_default category tag (Pack (l ++ Pack m :: r)) = get_facet get_default category tag (Pack (l ++ m ++ r)).
Proof. intros df c t l m r. rewrite !C53_get_facet. do 2 f_equal. rewrite !flat_map_app. reflexivity. Qed.
(* constraining a pack is constraining each of its elements *)
Theorem C53_constrained_pack : forall get_default category tag f l m r,
  get_facet get_default category tag (Pack (l ++ Constrained f (Pack m) :: r)) =
  get_facet get_default category tag (Pack (l ++ map (Constrained f) m ++ r)).
Proof.
  intros df c t f l m r. rewrite !C53_get_facet, !flat_map_app.
  assert (flat_map leaves (map (Constrained f) m) = map (under f) (flat_map leaves m)) as ->.
  { clear. induction m as [|e m IH]; [reflexivity|]. cbn [flat_map map leaves]. rewrite map_app, IH. reflexivity. }
  reflexivity.
Qed.
(* strf::with(child...)(args...): the child's facet if it has one for that type, else the parent's *)
Theorem C53_inner_pack : forall get_default constrainable category tag parent child p,
  inner_pack constrainable (Pack parent) child = Some p ->
  get_facet get_default category tag p =
  match rightmost category tag (flat_map leaves child) with Some v => v | None => get_facet get_default category tag (Pack parent) end.
Proof.
  intros df cn c t parent child p. unfold inner_pack. destruct (is_constrainable cn (Pack child)); [|discriminate]. intros [= <-]. rewrite !C53_get_facet.
  change (flat_map leaves [Pack parent; Pack child]) with (flat_map leaves parent ++ flat_map leaves child ++ []). rewrite app_nil_r, rightmost_app.
  destruct (rightmost c t (flat_map leaves child)); reflexivity.
Qed.
(* a category that is not constrainable never appears under a filter, nor in strf::with *)
Theorem C53_constrainable : forall constrainable e, well_formed_fpe constrainable e = true ->
  (forall f x, constrainable (lf_category x) = false -> In x (leaves (Constrained f e)) -> well_formed_fpe constrainable (Constrained f e) = false) /\
  (is_constrainable constrainable e = true -> forall x, In x (leaves e) -> constrainable (lf_category x) = true).
Proof.
  intros cn e HW. destruct (leaves_constrainable cn e HW) as [_ H]. split.
  - intros f x HC HI. cbn [well_formed_fpe]. rewrite HW. destruct (is_constrainable cn e) eqn:E; [|reflexivity]. specialize (H eq_refl). rewrite Forall_forall in H.
    cbn [leaves] in HI. apply in_map_iff in HI. destruct HI as (y & <- & HI). specialize (H y HI). cbn in *. congruence.
  - intros HC. specialize (H HC). rewrite Forall_forall in H. exact H.
Qed.
(* to_string.with(a...).with(b...) is as with(a..., b...); it does not compile if one of a... is
   itself constrained *)
Theorem C53_with : forall fp new, (forall r, merge_1st fp new = Some r -> r = fp ++ new) /\
  (merge_1st fp new <> None <-> forall f e, ~ In (Constrained f e) fp).
Proof.
  intros fp new. split.
  - intros r. unfold merge_1st. destruct (elements fp) as [x|] eqn:E; [|discriminate]. apply elements_ok in E. subst x. cbn [obind]. congruence.
  - unfold merge_1st. split.
    + intros H f e HI. apply H. clear H. induction fp as [|a fp IH]; [destruct HI|]. cbn [elements]. destruct HI as [->|HI]; [reflexivity|].
      specialize (IH HI). destruct (element a); [|reflexivity]. cbn [obind]. destruct (elements fp); [discriminate|reflexivity].
    + intros H. rewrite (elements_some fp); [discriminate|]. apply Forall_forall. intros x HI f e ->. exact (H f e HI).
Qed.
Example C53_ex : let ints := fun t => t =? 7 in let df := fun c => - c in
  let p := [Pack [Facet 1 10; Facet 2 20]; Constrained ints (Pack [Facet 1 11; Pack []]); Ref (Facet 3 30)] in
  well_formed_fpe (fun _ => true) (Pack p) = true /\
  get_facet df 1 7 (Pack p) = 11 /\ get_facet df 1 8 (Pack p) = 10 /\ get_facet df 2 7 (Pack p) = 20 /\ get_facet df 4 7 (Pack p) = -4 /\
  inner_pack (fun _ => true) (Pack p) [Facet 2 21] = Some (Pack [Pack p; Pack [Facet 2 21]]) /\
  merge_1st [Facet 2 21; Pack p] [Facet 5 50] = Some [Facet 2 21; Pack p; Facet 5 50] /\ merge_1st p [] = None.
Proof. cbv zeta. repeat (split; [reflexivity|]). reflexivity. Qed.
Print Assumptions C53_get_facet.
Print Assumptions C53_rightmost.
Print Assumptions C53_nesting.
Print Assumptions C53_constrained_pack.
Print Assumptions C53_inner_pack.
Print Assumptions C53_constrainable.
Print Assumptions C53_with.
