(* Proofs about SyntaxModel. *)
From Coq Require Import Permutation.
From Verif Require Import Base WidthModel DestModel DestProofs PrintModel PrintSpec PrintProofs StringModel JoinProofs ToModel ToProofs
  CsetModel TrSpec TrModel TrProofs PackSpec PackModel PackProofs SyntaxModel SyntaxSpec LifeProofs Properties_Tr.

Lemma get_facet_pack df c t l : get_facet df c t (Pack l) = facet_for df (flat_map leaves l) c t.
Proof. rewrite (get_facet_ok df c t (Pack l)) by (right; eauto). reflexivity. Qed.
Fixpoint fpe_size (e : fpe) : nat :=
  match e with Facet _ _ => 1 | Pack l => S (list_sum (map fpe_size l)) | Constrained _ e' => S (fpe_size e') | Ref e' => S (fpe_size e') end.
Lemma constrainable_leaves cn : forall n e, (fpe_size e < n)%nat -> (forall x, In x (leaves e) -> lf_filters x = [] -> cn (lf_category x) = true) ->
  is_constrainable cn e = true.
Proof.
  induction n as [|n IH]; intros e Hn H; [lia|]. destruct e as [c v|l|f e|e]; cbn [is_constrainable leaves fpe_size] in *.
  - apply (H (mk_leaf [] c v)); [left; reflexivity|reflexivity].
  - assert (Hl : Forall (fun e => (fpe_size e < n)%nat) l).
    { clear - Hn. revert Hn. induction l as [|e l IHl]; intros Hn; [constructor|]. cbn [map list_sum fold_right] in Hn. constructor; [|apply IHl]; unfold list_sum in *; lia. }
    clear Hn. induction Hl as [|e l He Hl IHl]; [reflexivity|]. cbn [fold_right flat_map] in *. rewrite (IH e He), IHl; [reflexivity| |].
    + intros x Hx. apply H. apply in_or_app. auto.
    + intros x Hx. apply H. apply in_or_app. auto.
  - reflexivity.
  - apply IH; [lia|exact H].
Qed.

Section Printing.
  Variables (df : Z -> Z) (cn : Z -> bool) (M : option Z).
  Lemma printable_ok :
    (forall ls p d, shows df cn M ls p d -> forall l, flat_map leaves l = ls -> arg_ok M (printable_arg df cn (Pack l) p) d) /\
    (forall ls ps ds, shows_all df cn M ls ps ds -> forall l, flat_map leaves l = ls -> Forall2 (arg_ok M) (map (printable_arg df cn (Pack l)) ps) ds).
  Proof.
    apply (shows_mut df cn M (fun ls p d => forall l, flat_map leaves l = ls -> arg_ok M (printable_arg df cn (Pack l) p) d)
      (fun ls ps ds => forall l, flat_map leaves l = ls -> Forall2 (arg_ok M) (map (printable_arg df cn (Pack l)) ps) ds)).
    - intros ls p d HF HO l <-. cbn [printable_arg]. unfold plain_arg. rewrite get_facet_pack. destruct HO as [->|HO].
      + apply HF.
      + destruct (pl_overridable p); [|apply HF]. rewrite HO, Z.eqb_refl. apply HF.
    - intros ls p d v HF HO HV l <-. cbn [printable_arg]. unfold plain_arg. rewrite get_facet_pack, HO. fold v.
      destruct (Z.eqb_spec v dont_override); [contradiction|]. apply HF.
    - intros ls child args ds HC _ IH l <-. cbn [printable_arg]. unfold inner_pack.
      rewrite (constrainable_leaves cn (S (fpe_size (Pack child))) (Pack child)); [|lia|exact HC].
      apply join_arg_ok, IH. cbn [flat_map leaves]. rewrite app_nil_r. reflexivity.
    - intros; constructor.
    - intros ls p ps d ds _ IH _ IHs l E. cbn [map]. constructor; auto.
  Qed.
  Lemma printables_ok ls ps ds : shows_all df cn M ls ps ds -> forall l, flat_map leaves l = ls ->
    Forall2 (arg_ok M) (map (printable_arg df cn (Pack l)) ps) ds.
  Proof. apply printable_ok. Qed.
End Printing.

(* ---- chains ---- *)
Lemma chain_ok {Res} qs : forall cat (o : syntax Res) cat' o', chain cat o qs = Some (cat', o') ->
  sy_creator o' = sy_creator o /\ sy_facets o' = sy_facets o ++ flat_map with_facets qs /\
  sy_policy o' = fold_left (fun x q => match reserve_of q with Some y => y | None => x end) qs (sy_policy o).
Proof.
  induction qs as [|q qs IH]; intros cat o cat' o' H; cbn [chain] in H.
  - injection H as <- <-. cbn. rewrite app_nil_r. auto.
  - destruct (chain_step cat o q) as [[cat1 o1]|] eqn:E; [|discriminate]. cbn [obind fst snd] in H.
    destruct (IH _ _ _ _ H) as (A & B & C). clear IH H. cbn [flat_map fold_left]. rewrite A, B, C, app_assoc. clear A B C.
    assert (sy_creator o1 = sy_creator o /\ sy_facets o1 = sy_facets o ++ with_facets q /\
            sy_policy o1 = match reserve_of q with Some y => y | None => sy_policy o end) as (-> & -> & ->); [|auto].
    destruct o as [c p l]. destruct q as [[|f fs]| | |n|n]; cbn [chain_step sy_creator sy_facets sy_policy with_facets reserve_of] in *.
    + destruct cat; try discriminate; injection E as <- <-; cbn; rewrite app_nil_r; auto.
    + unfold merge_1st in E. destruct (elements l) as [l'|] eqn:EL; [|discriminate]. apply elements_ok in EL. subst l'. cbn [obind] in E. injection E as <- <-. auto.
    + rewrite app_nil_r. destruct p, cat; try discriminate; injection E as <- <-; auto.
    + rewrite app_nil_r. destruct (is_sized c); [|discriminate]. destruct p; injection E as <- <-; auto.
    + rewrite app_nil_r. destruct (is_sized c); [|discriminate]. unfold space_of in E.
      destruct p; try discriminate; injection E as <- <-; cbn; repeat split; f_equal; destruct (Z.ltb_spec n 0); lia.
    + rewrite app_nil_r. destruct p; try discriminate. injection E as <- <-. cbn. auto.
Qed.
Lemma chain_sized {Res} qs : forall cat (o : syntax Res) cat' o', chain cat o qs = Some (cat', o') ->
  (sy_policy o <> NoReserve -> is_sized (sy_creator o) = true) -> sy_policy o' <> NoReserve -> is_sized (sy_creator o') = true.
Proof.
  induction qs as [|q qs IH]; intros cat o cat' o' H HS; cbn [chain] in H; [injection H as <- <-; exact HS|].
  destruct (chain_step cat o q) as [[cat1 o1]|] eqn:E; [|discriminate]. cbn [obind fst snd] in H. apply (IH _ _ _ _ H). clear IH H.
  destruct o as [c p l]. destruct q as [[|f fs]| | |n|n]; cbn [chain_step sy_creator sy_facets sy_policy] in *.
  + destruct cat; try discriminate; injection E as <- <-; exact HS.
  + destruct (merge_1st l (f :: fs)); [|discriminate]. injection E as <- <-. exact HS.
  + destruct p, cat; try discriminate; injection E as <- <-; cbn; auto; congruence.
  + destruct (is_sized c) eqn:K; [|discriminate]. destruct p; injection E as <- <-; cbn; auto.
  + destruct (is_sized c) eqn:K; [|discriminate]. destruct p; try discriminate; injection E as <- <-; cbn; auto.
  + destruct p; try discriminate. injection E as <- <-. cbn in *. auto using eq_sym. intros _. apply HS. discriminate.
Qed.
Lemma policy_nonneg qs : forall p, (forall n, p = GivenSpace n -> 0 <= n) ->
  forall n, fold_left (fun x q => match reserve_of q with Some y => y | None => x end) qs p = GivenSpace n -> 0 <= n.
Proof.
  induction qs as [|q qs IH]; intros p Hp; [exact Hp|]. cbn [fold_left]. apply IH. intros n. destruct q; cbn [reserve_of]; try discriminate; try apply Hp.
  - intros [= <-]. lia.
  - intros [= <-]. apply Z.mod_pos_bound. lia.
Qed.

(* ---- separating the arguments ---- *)
Lemma only_printables_ok args ps : only_printables args = Some ps <-> args = map APrintable ps.
Proof.
  revert ps. induction args as [|a args IH]; intros ps; cbn [only_printables].
  - split; [intros [= <-]; reflexivity|destruct ps; [reflexivity|discriminate]].
  - destruct a as [lv e|p|s]; try (split; [discriminate|destruct ps; discriminate]).
    destruct (only_printables args) as [l|] eqn:E; cbn [obind].
    + split; [intros [= <-]; cbn; f_equal; apply IH; reflexivity|]. destruct ps as [|p' ps]; [discriminate|]. cbn. intros [= -> H]. apply IH in H. congruence.
    + split; [discriminate|]. destruct ps as [|p' ps]; [discriminate|]. cbn. intros [= -> H]. apply IH in H. discriminate.
Qed.
Lemma separate_ok args fs ps : separate_args args = Some (fs, ps) <->
  exists lvs, length lvs = length fs /\ args = map (fun x => AFpe (fst x) (snd x)) (combine lvs fs) ++ map APrintable ps.
Proof.
  revert fs. induction args as [|a args IH]; intros fs; cbn [separate_args].
  - cbn. split.
    + intros [= <- <-]. exists []. auto.
    + intros (lvs & HL & H). destruct fs as [|f fs], lvs as [|lv lvs]; try discriminate. destruct ps; [reflexivity|discriminate].
  - assert (Tail : forall lvs, length lvs = length fs -> (forall lv e, a <> AFpe lv e) -> a :: args = map (fun x => AFpe (fst x) (snd x)) (combine lvs fs) ++ map APrintable ps -> fs = [] /\ only_printables (a :: args) = Some ps).
    { intros lvs HL Ha H. destruct fs as [|f fs], lvs as [|lv lvs]; try discriminate; [split; [reflexivity|apply only_printables_ok; exact H]|].
      exfalso. cbn in H. injection H as H _. eapply Ha. exact H. }
    destruct a as [lv e|p|s].
    + split.
      * destruct (separate_args args) as [[fs' ps']|]; [|discriminate]. cbn [obind fst snd]. intros [= <- <-].
        destruct (proj1 (IH fs')) as (lvs & HL & H); [reflexivity|]. exists (lv :: lvs). cbn. split; congruence.
      * intros (lvs & HL & H). destruct fs as [|f fs], lvs as [|lv' lvs]; try discriminate.
        -- cbn in H. destruct ps; discriminate.
        -- cbn in H. injection H as -> -> H. rewrite (proj2 (IH fs)); [reflexivity|]. exists lvs. cbn in HL. split; [lia|exact H].
    + split.
      * intros H. destruct (only_printables (APrintable p :: args)) as [l|] eqn:E; [|discriminate]. cbn [obind] in H. injection H as <- <-.
        exists []. split; [reflexivity|]. apply only_printables_ok. exact E.
      * intros (lvs & HL & H). destruct (Tail lvs HL) as [-> E]; [discriminate|exact H|]. rewrite E. reflexivity.
    + split; [discriminate|]. intros (lvs & HL & H). destruct (Tail lvs HL) as [-> E]; [discriminate|exact H|]. discriminate.
Qed.
Lemma separate_tr_ok args fs str ps : separate_tr_args args = Some (fs, str, ps) <->
  exists lvs, length lvs = length fs /\ (forall lv e, In (lv, e) (combine lvs fs) -> lv = false \/ exists c v, e = Facet c v) /\
    args = map (fun x => AFpe (fst x) (snd x)) (combine lvs fs) ++ ATrString str :: map APrintable ps.
Proof.
  revert fs. induction args as [|a args IH]; intros fs; cbn [separate_tr_args].
  - split; [discriminate|]. intros (lvs & HL & _ & H). destruct (combine lvs fs); discriminate.
  - destruct a as [lv e|p|s].
    + assert (K : is_fpe lv e = true <-> (lv = false \/ exists c v, e = Facet c v)).
      { destruct e, lv; cbn; split; intros; try reflexivity; try discriminate; eauto; destruct H as [?|(? & ? & ?)]; congruence. }
      split.
      * destruct (is_fpe lv e); [|discriminate]. destruct (separate_tr_args args) as [[[fs' str'] ps']|]; [|discriminate]. cbn [obind fst snd]. intros [= <- <- <-].
        destruct (proj1 (IH fs')) as (lvs & HL & HF & H); [reflexivity|]. exists (lv :: lvs). cbn [length combine map app fst snd]. split; [congruence|]. split; [|congruence].
        intros lv' e' [[= <- <-]|HI]; [apply K; reflexivity|apply HF; exact HI].
      * intros (lvs & HL & HF & H). destruct fs as [|f fs], lvs as [|lv' lvs]; try discriminate.
        cbn in H. injection H as -> -> H. rewrite (proj2 K) by (apply HF; left; reflexivity).
        rewrite (proj2 (IH fs)); [reflexivity|]. exists lvs. cbn in HL. split; [lia|]. split; [|exact H]. intros; apply HF; right; assumption.
    + split; [discriminate|]. intros (lvs & HL & _ & H). destruct (combine lvs fs); discriminate.
    + split.
      * destruct (only_printables args) as [l|] eqn:E; [|discriminate]. cbn [obind]. intros [= <- <- <-]. exists []. split; [reflexivity|]. split; [intros ? ? []|].
        cbn. f_equal. apply only_printables_ok. exact E.
      * intros (lvs & HL & _ & H). destruct fs as [|f fs], lvs as [|lv lvs]; try discriminate. cbn in H. injection H as -> H. apply only_printables_ok in H. rewrite H. reflexivity.
Qed.

(* ---- destinations ---- *)
Lemma keeps_by {Res} (D : dest_desc Res) (P : list Z -> Res -> Prop) R : full_laws (dd_ops D) R -> R (dd_init D) [] ->
  (forall s t, R s t -> P t (dd_finish D s)) -> dest_keeps D P.
Proof.
  intros L H0 HP pr t [HT _]. destruct (HT _ _ R L _ _ H0) as (s & E & HR). unfold on_dest. rewrite E. cbn [obind]. eexists. split; [reflexivity|]. apply HP, HR.
Qed.
(* C strings and arrays, with any use of them: in a valid state, or spoiled, and then more
   than 64 code units were written *)
Definition c_any (k n : nat) (s : cstr) (t : list Z) : Prop :=
  (cstr_R k n s t /\ (c_good s = false -> (c_ptr s <= length t)%nat)) \/ (poisoned s /\ (64 < length t)%nat).
Lemma c_any_laws k n : full_laws cstr_ops (c_any k n).
Proof.
  pose proof (cstr_laws k n) as L. pose proof poisoned_laws as LP.
  constructor.
  - intros s t u [[H HB]|[H HB]] Hu.
    + destruct (law_emit _ _ _ L s t u H Hu) as (s' & E & HR & Sp & G). exists s'. split; [exact E|]. split; [|auto]. left. split; [exact HR|].
      intros G'. rewrite app_length. cbn [cstr_ops d_emit d_good] in *. rewrite G' in G. symmetry in G. specialize (HB G).
      unfold cstr_emit in E. destruct (_ <=? c_end s)%nat; [|discriminate]. destruct (c_region s); [destruct (_ <=? length (c_buf s))%nat|destruct (_ <=? garbage_size)%nat]; try discriminate; injection E as <-; cbn; lia.
    + destruct (law_emit _ _ _ LP s t u H Hu) as (s' & E & HR & X). exists s'. split; [exact E|]. split; [|auto]. right. split; [exact HR|]. rewrite app_length. lia.
  - intros s t [[H HB]|[H HB]].
    + destruct (law_recycle _ _ _ L s t H) as [HR Sp]. split; [|exact Sp]. left. split; [exact HR|]. intros _. cbn [cstr_ops d_recycle]. unfold cstr_recycle. destruct (c_good s); cbn; lia.
    + destruct (law_recycle _ _ _ LP s t H) as [HR Sp]. split; [|exact Sp]. right. auto.
  - intros s t u [[H HB]|[H HB]] G.
    + left. split; [apply (law_bad _ _ _ L); assumption|]. intros _. cbn [cstr_ops d_good] in G. specialize (HB G). rewrite app_length. lia.
    + right. split; [exact H|]. rewrite app_length. lia.
  - intros s t u [[H HB]|[H HB]] _ Hu.
    + destruct (c_good s) eqn:G.
      * destruct (law_do_write _ _ _ L s t u H) as (s' & E & HR); [exact G|exact Hu|]. exists s'. split; [exact E|]. left. split; [exact HR|]. intros _.
        cbn [cstr_ops d_do_write] in E. unfold cstr_do_write in E. destruct (_ <? _)%nat; [discriminate|]. destruct (cstr_emit s _); [|discriminate]. cbn [obind] in E. injection E as <-. cbn. lia.
      * destruct H as (Hn & Hk & H). rewrite G in H. destruct H as (Hr & He & Hp & _). cbn [cstr_ops d_space d_do_write] in *.
        destruct (poisoned_do_write s u Hr He Hp) as (s1 & E1 & P1); [lia|]. exists s1. split; [exact E1|]. right. split; [exact P1|]. specialize (HB eq_refl). rewrite app_length. lia.
    + destruct (law_do_write _ _ _ LP s t u H I Hu) as (s' & E & HR). exists s'. split; [exact E|]. right. split; [exact HR|]. rewrite app_length. lia.
Qed.

Lemma skipn_twice {A} : forall a b (l : list A), skipn a (skipn b l) = skipn (a + b) l.
Proof. intros a b. induction b as [|b IH]; intros l; [rewrite Nat.add_0_r; reflexivity|]. destruct l as [|x l]; [rewrite !skipn_nil; reflexivity|]. rewrite Nat.add_succ_r. cbn [skipn]. apply IH. Qed.
(* all of the text fits: the rest of the buffer is as it was *)
Definition c_in (k : nat) (buf : list Z) (s : cstr) (t : list Z) : Prop :=
  c_region s = true /\ c_end s = (length buf - k)%nat /\ c_ptr s = length t /\ (length t <= length buf - k)%nat /\ c_buf s = t ++ skipn (length t) buf.
Lemma c_in_keeps k buf : buffer_keeps cstr_ops (c_in k buf).
Proof.
  intros s t u (Hr & He & Hp & Hl & Hb) Hu. cbn [cstr_ops d_space d_emit d_good] in *. rewrite He, Hp in Hu.
  assert (HL : length (c_buf s) = length buf) by (rewrite Hb, app_length, skipn_length; lia).
  unfold cstr_emit. rewrite Hr, Hp, He, HL. replace (length t + length u <=? length buf - k)%nat with true by (symmetry; apply Nat.leb_le; lia).
  replace (length t + length u <=? length buf)%nat with true by (symmetry; apply Nat.leb_le; lia). eexists. split; [reflexivity|]. cbn. split; [|split; [lia|reflexivity]].
  split; [reflexivity|]. split; [first [reflexivity|assumption]|]. rewrite app_length. cbn [c_ptr c_buf]. split; [lia|]. split; [lia|].
  unfold store. rewrite Hb. rewrite firstn_app, Nat.sub_diag, firstn_all. cbn [firstn]. rewrite app_nil_r, <- app_assoc. do 2 f_equal.
  rewrite skipn_app. rewrite (skipn_all2 t) by lia. cbn [app]. rewrite skipn_twice. f_equal. lia.
Qed.
Lemma c_in_run k buf pr t s0 : prints_text pr t -> c_in k buf s0 [] -> c_good s0 = true -> (length t <= length buf - k)%nat ->
  exists s, pr cstr cstr_ops s0 = Some s /\ c_in k buf s t /\ c_good s = true.
Proof.
  intros [_ HT] H0 HG Hl. destruct (HT cstr cstr_ops (c_in k buf) (c_in_keeps k buf) s0 [] H0 HG) as (s & E & H & _ & G); [|eauto].
  destruct H0 as (_ & He & Hp & _). cbn [cstr_ops d_space]. rewrite He, Hp. cbn [length]. lia.
Qed.
Definition gives_text (text : list Z) (r : list Z) : Prop := r = text.
(* what to(char*, ...) promises; [None]: the terminator goes astray (C08) *)
Definition cstr_result (buf : list Z) (text : list Z) (r : option (list Z * (bool * nat) * bool)) : Prop :=
  match r with
  | Some (buf', (in_buf, k), truncated) =>
      in_buf = true /\ length buf' = length buf /\ (k < length buf)%nat /\ nth k buf' 1 = 0 /\ is_prefix (firstn k buf') text /\
      (truncated = false <-> (length text < length buf)%nat) /\
      (truncated = false -> k = length text /\ buf' = text ++ 0 :: skipn (S (length text)) buf)
  | None => (64 < length text)%nat /\ (length buf <= length text)%nat
  end.
Definition array_result (buf : list Z) (text : list Z) (r : list Z * option (bool * nat) * bool) : Prop :=
  match r with
  | (buf', Some (true, k), truncated) =>
      length buf' = length buf /\ (k <= length buf)%nat /\ is_prefix (firstn k buf') text /\
      (truncated = false <-> (length text <= length buf)%nat) /\
      (truncated = false -> k = length text /\ buf' = text ++ skipn (length text) buf)
  | _ => (64 < length text)%nat /\ (length buf < length text)%nat
  end.
Definition file_result (text : list Z) (r : list Z * Z * bool) : Prop :=
  let '(file, count, success) := r in is_prefix file text /\ count = zlen file /\ (success = true <-> file = text).
Definition stream_result (text : list Z) (r : list Z * Z * bool) : Prop :=
  let '(file, count, success) := r in holed file text /\ count = zlen file /\ (success = true <-> file = text).
Lemma to_string_keeps : creator_keeps c_to_string gives_text.
Proof.
  split.
  - apply (keeps_by (cr_unsized c_to_string) _ smak_R smak_laws); [repeat split; cbn; lia|]. intros s t H. apply (smak_finish_ok _ _ H).
  - cbn [c_to_string cr_sized]. intros n _. apply (keeps_by (mk_dest_desc szmk szmk_ops (szmk_init (Z.to_nat n)) szmk_finish) _ szmk_R szmk_laws).
    + unfold szmk_R, szmk_init; cbn. rewrite ?repeat_length. split; [lia|reflexivity].
    + intros s t H. apply H.
Qed.
Lemma append_keeps str : creator_keeps (c_append str) (fun text r => r = str ++ text).
Proof.
  assert (dest_keeps (cr_unsized (c_append str)) (fun text r => r = str ++ text)) as H; [|split; [exact H|cbn; intros _ _; exact H]].
  apply (keeps_by (cr_unsized (c_append str)) _ (sapp_R str) (sapp_laws str)); [repeat split; cbn; lia|]. intros s t H. apply (sapp_finish_ok _ _ _ H).
Qed.
Lemma cstr_keeps buf : (1 <= length buf)%nat -> creator_keeps (c_cstr buf) (cstr_result buf).
Proof.
  intros H1. split; [|exact I]. intros pr t HT. cbn [cr_unsized c_cstr]. unfold on_dest. cbn [dd_ops dd_init dd_finish dd_state].
  destruct (Nat.ltb_spec (length t) (length buf)) as [HL|HL].
  - destruct (c_in_run 1 buf pr t (cstr_init buf) HT) as (s & -> & (Hr & He & Hp & Hl & Hb) & G); [repeat split; cbn; lia|reflexivity|lia|]. cbn [obind].
    eexists. split; [reflexivity|]. unfold cstr_finish. rewrite G, Hr, Hp. assert (LB : length (c_buf s) = length buf) by (rewrite Hb, app_length, skipn_length; lia). rewrite LB.
    replace (length t <? length buf)%nat with true by (symmetry; apply Nat.ltb_lt; lia). cbn [negb cstr_result].
    assert (EB : store (c_buf s) (length t) [0] = t ++ 0 :: skipn (S (length t)) buf).
    { unfold store. rewrite Hb. rewrite firstn_app, Nat.sub_diag, firstn_all. cbn [firstn length app]. rewrite app_nil_r. do 2 f_equal.
      rewrite skipn_app, (skipn_all2 t) by lia. cbn [app]. rewrite skipn_twice. f_equal. lia. }
    rewrite EB. rewrite app_length. cbn [length]. rewrite skipn_length. split; [reflexivity|]. split; [lia|]. split; [exact HL|].
    split; [rewrite app_nth2, Nat.sub_diag by lia; reflexivity|]. split; [rewrite firstn_app, Nat.sub_diag, firstn_all, app_nil_r; apply is_prefix_refl|]. tauto.
  - destruct (keeps_by (cr_unsized (c_cstr buf)) (fun t r => match r with
      | Some (buf', (in_buf, k), truncated) => in_buf = true /\ length buf' = length buf /\ (k < length buf)%nat /\ nth k buf' 1 = 0 /\ is_prefix (firstn k buf') t /\ (truncated = false -> firstn k buf' = t)
      | None => (64 < length t)%nat end) _ (c_any_laws 1 (length buf))) with (pr := pr) (t := t) as (r & E & H); [| |exact HT|].
    + left. split; [apply (cstr_init_R buf H1)|discriminate].
    + cbn [cr_unsized c_cstr dd_finish]. intros s t' [[H _]|[H HT']].
      * destruct (cstr_finish_ok _ _ _ H1 H) as (b & k & tr & -> & A & B & C & D & F & _). cbn. rewrite A. auto 10.
      * destruct H as (G & _ & _ & _ & Hi). unfold cstr_finish. rewrite G, Hi. exact HT'.
    + exists r. split; [exact E|]. destruct r as [[[buf' [ib k]] tr]|]; cbn [cstr_result]; [|auto]. destruct H as (A & B & C & D & F & T).
      assert (tr = true) as ->. { destruct tr; [reflexivity|]. specialize (T eq_refl). apply (f_equal (@length Z)) in T. rewrite firstn_length in T. lia. }
      repeat split; auto; try discriminate. lia.
Qed.
Lemma array_keeps buf : creator_keeps (c_array buf) (array_result buf).
Proof.
  split; [|exact I]. intros pr t HT. cbn [cr_unsized c_array]. unfold on_dest. cbn [dd_ops dd_init dd_finish dd_state].
  destruct (Nat.leb_spec (length t) (length buf)) as [HL|HL].
  - destruct (c_in_run 0 buf pr t (arr_init buf) HT) as (s & -> & (Hr & He & Hp & Hl & Hb) & G); [repeat split; cbn; lia|reflexivity|lia|]. cbn [obind].
    eexists. split; [reflexivity|]. unfold arr_finish. rewrite G, Hr, Hp. cbn [negb fst snd array_result].
    rewrite Hb, app_length, skipn_length. split; [lia|]. split; [exact HL|]. split; [rewrite firstn_app, Nat.sub_diag, firstn_all, app_nil_r; apply is_prefix_refl|]. tauto.
  - destruct (keeps_by (cr_unsized (c_array buf)) (fun t r => match r with
      | (buf', Some (true, k), truncated) => length buf' = length buf /\ (k <= length buf)%nat /\ is_prefix (firstn k buf') t /\ (truncated = false -> firstn k buf' = t)
      | _ => (64 < length t)%nat end) _ (c_any_laws 0 (length buf))) with (pr := pr) (t := t) as (r & E & H); [| |exact HT|].
    + left. split; [apply (arr_init_R buf)|discriminate].
    + cbn [cr_unsized c_array dd_finish]. intros s t' [[H _]|[H HT']].
      * destruct (arr_finish_ok _ _ _ H) as (k & tr & -> & A & B & C & D & _). cbn. auto.
      * destruct H as (G & _ & _ & _ & Hi). unfold arr_finish. rewrite G, Hi. exact HT'.
    + exists r. split; [exact E|]. destruct r as [[buf' [[[|] k]|]] tr]; cbn [array_result]; auto. destruct H as (B & C & F & T).
      assert (tr = true) as ->. { destruct tr; [reflexivity|]. specialize (T eq_refl). apply (f_equal (@length Z)) in T. rewrite firstn_length in T. lia. }
      repeat split; auto; try discriminate. lia.
Qed.
Lemma cfile_keeps oracle : creator_keeps (c_cfile oracle) file_result.
Proof.
  split; [|exact I]. apply (keeps_by (cr_unsized (c_cfile oracle)) _ _ cf_laws); [apply fwr_init_R; lia|]. cbn [cr_unsized c_cfile dd_finish]. intros s t H.
  destruct (fwr_finish_ok s t H) as (file & -> & A & B). unfold file_result. auto.
Qed.
Lemma streambuf_keeps oracle : creator_keeps (c_streambuf oracle) stream_result.
Proof.
  split; [|exact I]. apply (keeps_by (cr_unsized (c_streambuf oracle)) _ _ sbuf_laws); [apply sbuf_weaken, fwr_init_R; lia|]. cbn [cr_unsized c_streambuf dd_finish]. intros s t H.
  destruct (sbuf_finish_ok s t H) as (file & -> & A & B). unfold stream_result. auto.
Qed.

(* ---- the call ---- *)
Lemma full_pack_leaves own new : flat_map leaves (Pack own :: new) = flat_map leaves (own ++ new).
Proof. rewrite flat_map_app. reflexivity. Qed.
Lemma sy_print_ok {Res} df cn M (c : creator Res) P cat qs cat' o eol order args fs ps ds :
  creator_keeps c P -> chain cat (to_creator c) qs = Some (cat', o) -> separate_args args = Some (fs, ps) ->
  (forall l, Permutation l (order l)) ->
  shows_all df cn M (flat_map leaves (flat_map with_facets qs ++ fs)) ps ds ->
  exists r, sy_print df cn o eol order args = Some r /\ P (concat (map d_text ds) ++ eol_text eol) r.
Proof.
  intros [KU KS] HC HS HO HD. destruct (chain_ok qs _ _ _ _ HC) as (Ec & Ef & Ep). cbn [to_creator sy_creator sy_facets sy_policy app] in Ec, Ef, Ep.
  pose proof (chain_sized qs _ _ _ _ HC) as HSz. cbn [to_creator sy_policy] in HSz. specialize (HSz ltac:(congruence)).
  assert (HN : forall n, sy_policy o = GivenSpace n -> 0 <= n) by (rewrite Ep; apply policy_nonneg; discriminate).
  unfold sy_print. rewrite HS, Ec, Ef. cbn [obind fst snd]. unfold full_pack.
  pose proof (printables_ok df cn M _ _ _ HD _ (full_pack_leaves (flat_map with_facets qs) fs)) as HF.
  set (l := map _ ps) in *. destruct (sy_policy o) as [|n|].
  - apply KU. apply (print_args_ok M); exact HF.
  - rewrite Ec in HSz. unfold is_sized in HSz. destruct (cr_sized c) as [D|]; [|exfalso; discriminate HSz; discriminate]. cbn [obind]. apply KS; [apply HN; reflexivity|apply (print_args_ok M); exact HF].
  - rewrite Ec in HSz. unfold is_sized in HSz. destruct (cr_sized c) as [D|]; [|exfalso; discriminate HSz; discriminate]. cbn [obind].
    destruct (calc_ok M eol l ds (order (positions l)) HF) as (pr & E & HT); [apply HO|]. rewrite E. cbn [obind fst snd]. apply KS; [apply Z.mod_pos_bound; lia|exact HT].
Qed.
Lemma sy_tr_ok {Res} df cn M cc vt csof (c : creator Res) P cat qs cat' o eol args fs str tps ps ds :
  creator_keeps c P -> chain cat (to_creator c) qs = Some (cat', o) -> separate_tr_args args = Some (fs, str, ps) ->
  let ls := flat_map leaves (flat_map with_facets qs ++ fs) in
  shows_all df cn M ls ps ds -> parses 0 str tps -> zlen ps < 2 ^ 59 ->
  let b := csof (facet_for df ls cc vt) in
  let text := items_text b (map d_text ds) (resolve (zlen ps) 0 tps) ++ eol_text eol in
  (last_reserve qs = CalcSize -> cr_same c = true /\ zlen text < 2 ^ 63 /\ Forall (fun d => zlen (d_text d) < 2 ^ 63) ds) ->
  exists r, sy_tr df cn cc vt csof o eol args = Some r /\ P text r.
Proof.
  intros [KU KS] HC HS ls HD HP HL b text HR. destruct (chain_ok qs _ _ _ _ HC) as (Ec & Ef & Ep). cbn [to_creator sy_creator sy_facets sy_policy app] in Ec, Ef, Ep.
  fold (last_reserve qs) in Ep. rewrite <- Ep in HR.
  pose proof (chain_sized qs _ _ _ _ HC) as HSz. cbn [to_creator sy_policy] in HSz. specialize (HSz ltac:(congruence)).
  assert (HN : forall n, sy_policy o = GivenSpace n -> 0 <= n) by (rewrite Ep; apply policy_nonneg; discriminate).
  unfold sy_tr. rewrite HS, Ec, Ef. cbn [obind fst snd]. unfold full_pack. rewrite get_facet_pack, full_pack_leaves. fold ls b.
  pose proof (printables_ok df cn M _ _ _ HD _ (full_pack_leaves (flat_map with_facets qs) fs)) as HF.
  set (l := map _ ps) in *. assert (EL : zlen l = zlen ps) by (unfold l; apply zlen_map).
  assert (PT : prints_text (print_tr eol b str l) text) by (unfold text; rewrite <- EL; apply (print_tr_ok M); [exact HP|exact HF|lia]).
  destruct (sy_policy o) as [|n|].
  - apply KU. exact PT.
  - rewrite Ec in HSz. unfold is_sized in HSz. destruct (cr_sized c) as [D|]; [|exfalso; discriminate HSz; discriminate]. cbn [obind]. apply KS; [apply HN; reflexivity|exact PT].
  - destruct (HR eq_refl) as (-> & HT & HZ). rewrite Ec in HSz. unfold is_sized in HSz. destruct (cr_sized c) as [D|]; [|exfalso; discriminate HSz; discriminate]. cbn [obind].
    destruct (tr_calc_ok M eol b str tps l ds HP HF) as (pr & E & HT'); [lia|rewrite EL; exact HT|exact HZ|]. rewrite E. cbn [obind fst snd]. apply KS; [apply zlen_nonneg|]. unfold text. rewrite <- EL. exact HT'.
Qed.
