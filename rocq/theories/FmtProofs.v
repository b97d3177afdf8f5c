(* Format functions: proofs. *)
From Verif Require Import Base WidthModel DigitsModel IntSpec IntModel FloatSpec FloatModel FmtModel.

(* the family a specifier belongs to *)
Inductive family := KInteger | KFloating | KAlignment | KRepeat | KStringPrecision | KTranscoding.
Definition family_eq (a b : family) : {a = b} + {a <> b}. Proof. decide equality. Defined.
Definition family_of (s : spec) : family :=
  match s with SInt _ => KInteger | SFloat _ => KFloating | SAlign _ => KAlignment | SQuantity _ => KRepeat
  | SPrecision _ => KStringPrecision | SCharset _ _ => KTranscoding end.
Definition call_family (c : fcall) : family :=
  match c with KInt _ => KInteger | KFloat _ => KFloating | KAlign _ => KAlignment | KMulti _ => KRepeat
  | KPrecision _ => KStringPrecision | KCharset _ => KTranscoding end.
Definition type_family (t : spec_type) : family :=
  match t with
  | TIntDefault | TIntNoPad _ | TIntStatic _ _ | TIntDyn => KInteger
  | TFloatDefault | TFloatNoPunct | TFloatDyn => KFloating
  | TAlign _ => KAlignment | TQuantity => KRepeat | TPrecision _ => KStringPrecision | TCharset _ _ => KTranscoding
  end.
Lemma type_family_of s : type_family (type_of s) = family_of s.
Proof. destruct s as [[]|[]|[]| |[]|]; reflexivity. Qed.
Lemma has_member_family s c : has_member s c = true <-> family_of s = call_family c.
Proof. destruct s, c; cbn; split; congruence. Qed.
Lemma has_member_false s c : has_member s c = false <-> family_of s <> call_family c.
Proof. destruct s, c; cbn; split; try congruence; intros H; exfalso; apply H; reflexivity. Qed.
Lemma spec_step_family s c new : spec_step s c = Some new -> family_of new = family_of s.
Proof.
  destruct s, c; cbn; try discriminate; intros H; try (injection H as <-; reflexivity).
  destruct (call f c); cbn in H; [injection H as <-; reflexivity|discriminate].
Qed.
Lemma spec_step_member s c new : spec_step s c = Some new -> family_of s = call_family c.
Proof. destruct s, c; cbn; try discriminate; reflexivity. Qed.

(* well-formed: at most one specifier of each family *)
Definition distinct (ss : list spec) : Prop := NoDup (map family_of ss).

Lemma convert_same s : convert (type_of s) s = Some s.
Proof. unfold convert. destruct (spec_type_eq (type_of s) (type_of s)); [reflexivity|congruence]. Qed.
Lemma convert_all_same ss : convert_all (map type_of ss) ss = Some ss.
Proof. induction ss as [|s ss IH]; [reflexivity|]. cbn [map convert_all]. rewrite convert_same. cbn [obind]. rewrite IH. reflexivity. Qed.
Lemma fmt_replace_other from to ss :
  (forall s, In s ss -> family_of s <> type_family from) -> fmt_replace from to (map type_of ss) = map type_of ss.
Proof.
  intros H. unfold fmt_replace. rewrite map_map. apply map_ext_in. intros s Hs. destruct (spec_type_eq from (type_of s)) as [->|N]; [|reflexivity].
  exfalso. apply (H s Hs). rewrite type_family_of. reflexivity.
Qed.
Lemma build_selected_ok c new : forall ss s, distinct ss -> find_member c ss = Some s ->
  family_of new = family_of s -> type_of s <> type_of new ->
  build_selected (type_of new) new (fmt_replace (type_of s) (type_of new) (map type_of ss)) ss = Some (in_place c new ss).
Proof.
  induction ss as [|x ss IH]; intros s D F N T; [discriminate|].
  cbn [find_member find] in F. unfold find_member in IH. cbn [in_place map fmt_replace build_selected].
  apply NoDup_cons_iff in D. destruct D as [D1 D2]. fold (fmt_replace (type_of s) (type_of new) (map type_of ss)).
  destruct (has_member x c) eqn:E.
  - injection F as <-. destruct (spec_type_eq (type_of x) (type_of x)) as [_|Q]; [|congruence].
    destruct (spec_type_eq (type_of new) (type_of new)) as [_|Q]; [|congruence].
    rewrite fmt_replace_other, convert_all_same; [reflexivity|].
    intros s Hs. rewrite type_family_of. intros Q. apply D1. rewrite <- Q. apply in_map. exact Hs.
  - assert (X : family_of x <> family_of s).
    { apply has_member_false in E. apply find_some in F. destruct F as [_ F]. apply has_member_family in F. congruence. }
    destruct (spec_type_eq (type_of s) (type_of x)) as [Q|_].
    { exfalso. apply X. rewrite <- !type_family_of, Q. reflexivity. }
    destruct (spec_type_eq (type_of new) (type_of x)) as [Q|_].
    { exfalso. apply X. rewrite <- N, <- !type_family_of, Q. reflexivity. }
    rewrite convert_same. cbn [obind]. rewrite (IH s D2 F N T). reflexivity.
Qed.

(* what a call does to a well-formed object *)
Lemma vf_call_eq {V} (v : vf V) c : distinct (vf_specs v) ->
  vf_call v c = (do s <- find_member c (vf_specs v) ; do new <- spec_step s c ; Some (mk_vf (vf_value v) (in_place c new (vf_specs v)))).
Proof.
  intros D. unfold vf_call. destruct (find_member c (vf_specs v)) as [s|] eqn:F; [|reflexivity]. cbn [obind].
  destruct (spec_step s c) as [new|] eqn:E; [|reflexivity]. cbn [obind].
  destruct (spec_type_eq (type_of s) (type_of new)) as [Q|Q]; [reflexivity|].
  rewrite (build_selected_ok c new _ s D F (spec_step_family _ _ _ E) Q). reflexivity.
Qed.
Lemma in_place_family c new ss : family_of new = call_family c -> map family_of (in_place c new ss) = map family_of ss.
Proof.
  intros N. induction ss as [|x ss IH]; [reflexivity|]. cbn [in_place]. destruct (has_member x c) eqn:E; cbn [map].
  - apply has_member_family in E. rewrite N, E. reflexivity.
  - rewrite IH. reflexivity.
Qed.

(* the specifier of a family *)
Definition spec_of (k : family) (ss : list spec) : option spec := find (fun s => if family_eq (family_of s) k then true else false) ss.
Lemma find_member_spec c ss : find_member c ss = spec_of (call_family c) ss.
Proof.
  unfold find_member, spec_of. induction ss as [|x ss IH]; [reflexivity|]. cbn [find]. rewrite IH.
  destruct (has_member x c) eqn:E; destruct (family_eq (family_of x) (call_family c)) as [Q|Q]; try reflexivity.
  - apply has_member_family in E. contradiction.
  - apply has_member_false in E. contradiction.
Qed.
Lemma spec_of_some k ss s : spec_of k ss = Some s -> family_of s = k.
Proof. intros H. apply find_some in H. destruct H as [_ H]. destruct (family_eq (family_of s) k); [assumption|discriminate]. Qed.
Lemma spec_of_in_place c new ss k : family_of new = call_family c ->
  spec_of k (in_place c new ss) =
  (if family_eq (call_family c) k then match spec_of k ss with Some _ => Some new | None => None end else spec_of k ss).
Proof.
  intros N. induction ss as [|x ss IH].
  - cbn. destruct (family_eq (call_family c) k); reflexivity.
  - cbn [in_place]. destruct (has_member x c) eqn:E.
    + apply has_member_family in E. unfold spec_of. cbn [find]. rewrite N, E.
      destruct (family_eq (call_family c) k); reflexivity.
    + apply has_member_false in E. unfold spec_of in *. cbn [find].
      destruct (family_eq (family_of x) k) as [Q|Q].
      * destruct (family_eq (call_family c) k); [congruence|reflexivity].
      * exact IH.
Qed.
Lemma spec_of_none k ss : spec_of k ss = None <-> ~ In k (map family_of ss).
Proof.
  unfold spec_of. induction ss as [|x ss IH]; cbn [find map In]; [tauto|].
  destruct (family_eq (family_of x) k) as [Q|Q]; [split; [discriminate|intros H; exfalso; apply H; left; exact Q]|].
  rewrite IH. tauto.
Qed.

(* one call, through the specifiers *)
Lemma vf_call_spec {V} (v v' : vf V) c : distinct (vf_specs v) -> vf_call v c = Some v' ->
  vf_value v' = vf_value v /\ distinct (vf_specs v') /\ map family_of (vf_specs v') = map family_of (vf_specs v) /\
  exists s new, spec_of (call_family c) (vf_specs v) = Some s /\ spec_step s c = Some new /\
    forall k, spec_of k (vf_specs v') = if family_eq (call_family c) k then Some new else spec_of k (vf_specs v).
Proof.
  intros D. rewrite (vf_call_eq v c D), find_member_spec. destruct (spec_of (call_family c) (vf_specs v)) as [s|] eqn:F; [|discriminate]. cbn [obind].
  destruct (spec_step s c) as [new|] eqn:E; [|discriminate]. cbn [obind]. intros H. injection H as <-. cbn [vf_value vf_specs].
  assert (N : family_of new = call_family c) by (rewrite (spec_step_family _ _ _ E); apply spec_of_some with (1 := F)).
  split; [reflexivity|]. unfold distinct. rewrite (in_place_family c new _ N). split; [exact D|]. split; [reflexivity|].
  exists s, new. split; [reflexivity|]. split; [exact E|]. intros k. rewrite (spec_of_in_place c new _ k N).
  destruct (family_eq (call_family c) k) as [<-|]; [rewrite F|]; reflexivity.
Qed.

(* every specifier is determined by the calls of its own family *)
Fixpoint spec_steps (s : spec) (cs : list fcall) : option spec :=
  match cs with [] => Some s | c :: cs' => do s' <- spec_step s c ; spec_steps s' cs' end.
Definition of_family (k : family) (cs : list fcall) : list fcall :=
  filter (fun c => if family_eq (call_family c) k then true else false) cs.

Lemma vf_calls_spec {V} : forall cs (v v' : vf V), distinct (vf_specs v) -> vf_calls v cs = Some v' ->
  vf_value v' = vf_value v /\ distinct (vf_specs v') /\ map family_of (vf_specs v') = map family_of (vf_specs v) /\
  forall k s, spec_of k (vf_specs v) = Some s -> exists s', spec_of k (vf_specs v') = Some s' /\ spec_steps s (of_family k cs) = Some s'.
Proof.
  induction cs as [|c cs IH]; intros v v' D H; cbn [vf_calls] in H.
  - injection H as <-. repeat split; auto. intros k s Hs. exists s. auto.
  - destruct (vf_call v c) as [v1|] eqn:E; [|discriminate]. cbn [obind] in H.
    destruct (vf_call_spec v v1 c D E) as (V1 & D1 & M1 & s & new & F & S1 & K1).
    destruct (IH v1 v' D1 H) as (V2 & D2 & M2 & K2).
    split; [congruence|]. split; [assumption|]. split; [congruence|].
    intros k x Hx. specialize (K1 k). unfold of_family. cbn [filter]. fold (of_family k cs).
    destruct (family_eq (call_family c) k) as [Q|Q].
    + subst k. rewrite F in Hx. injection Hx as <-. destruct (K2 _ _ K1) as (s' & P1 & P2). exists s'. split; [assumption|].
      cbn [spec_steps]. rewrite S1. exact P2.
    + rewrite Hx in K1. exact (K2 _ _ K1).
Qed.
(* and the calls compile exactly when each specifier accepts the calls of its family *)
Lemma vf_calls_compile {V} : forall cs (v : vf V), distinct (vf_specs v) ->
  (exists v', vf_calls v cs = Some v') <->
  (forall c, In c cs -> In (call_family c) (map family_of (vf_specs v))) /\
  (forall k s, spec_of k (vf_specs v) = Some s -> spec_steps s (of_family k cs) <> None).
Proof.
  induction cs as [|c cs IH]; intros v D; cbn [vf_calls].
  - split; [|intros _; eauto]. intros _. split; [intros c []|]. intros k s _ H. discriminate.
  - split.
    + intros [v' H]. destruct (vf_call v c) as [v1|] eqn:E; [|discriminate]. cbn [obind] in H.
      destruct (vf_call_spec v v1 c D E) as (V1 & D1 & M1 & s & new & F & S1 & K1).
      assert (C : exists v', vf_calls v1 cs = Some v') by eauto. apply (IH v1 D1) in C. destruct C as [C1 C2]. rewrite M1 in C1. split.
      * intros c' [<-|Hc]; [|apply C1; exact Hc]. destruct (in_dec family_eq (call_family c) (map family_of (vf_specs v))) as [|Q]; [assumption|].
        apply spec_of_none in Q. congruence.
      * intros k x Hx. specialize (K1 k). unfold of_family. cbn [filter]. fold (of_family k cs).
        destruct (family_eq (call_family c) k) as [Q|Q]; [|rewrite Hx in K1; apply (C2 k x K1)].
        subst k. rewrite F in Hx. injection Hx as <-. cbn [spec_steps]. rewrite S1. apply (C2 _ _ K1).
    + intros [H1 H2]. rewrite (vf_call_eq v c D), find_member_spec.
      destruct (spec_of (call_family c) (vf_specs v)) as [s|] eqn:F; [|apply spec_of_none in F; exfalso; apply F, H1; left; reflexivity].
      pose proof (H2 _ _ F) as X. unfold of_family in X. cbn [filter] in X. destruct (family_eq (call_family c) (call_family c)); [|congruence].
      fold (of_family (call_family c) cs) in X. cbn [spec_steps] in X. cbn [obind].
      destruct (spec_step s c) as [new|] eqn:E; [|cbn in X; congruence]. cbn [obind] in *.
      assert (N : family_of new = call_family c) by (rewrite (spec_step_family _ _ _ E); apply spec_of_some with (1 := F)).
      apply IH; unfold distinct; cbn [vf_specs].
      * rewrite (in_place_family c new _ N). exact D.
      * rewrite (in_place_family c new _ N). split; [intros c' Hc; apply H1; right; exact Hc|].
        intros k x Hx. rewrite (spec_of_in_place c new _ k N) in Hx. destruct (family_eq (call_family c) k) as [<-|Q].
        { rewrite F in Hx. injection Hx as <-. exact X. }
        specialize (H2 k x Hx). unfold of_family in H2. cbn [filter] in H2. destruct (family_eq (call_family c) k); [contradiction|]. exact H2.
Qed.
