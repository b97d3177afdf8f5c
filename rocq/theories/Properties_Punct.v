(* C67: the numeric punctuation facets *)
From Coq Require Import String List.
From Verif Require Import Base DestModel DestProofs UtfForms GroupSpec GroupModel GroupProofs DigitsModel CharsetModel IntSpec IntModel IntProofs Properties_Int PunctModel PunctProofs.
Import ListNotations.

(* the last value given to a setter, if any *)
Fixpoint last_set {A} (get : np_call -> option A) (init : A) (qs : list np_call) : A :=
  match qs with [] => init | q :: r => last_set get (match get q with Some x => x | None => init end) r end.

(* numpunct: after any history of setters, each observer gives the value set last; the counts
   and distributions are those of the grouping (C37) *)
Theorem C67_numpunct : forall p qs, let o := np_observed (np_applies p qs) in
  ob_grouping o = last_set (fun q => match q with SetGrouping g => Some g | _ => None end) (np_grouping p) qs /\
  ob_sep o = last_set (fun q => match q with SetSep c => Some c | _ => None end) (np_sep p) qs /\
  ob_point o = last_set (fun q => match q with SetPoint c => Some c | _ => None end) (np_point p) qs /\
  (forall gs rep n, represents (ob_grouping o) gs rep -> 0 <= n ->
    ob_count o n = Some (boundaries_below (boundary gs rep) (Z.to_nat n)) /\
    ob_any o n = (0 <? boundaries_below (boundary gs rep) (Z.to_nat n)) /\ ob_distribute o n = distribute (ob_grouping o) n).
Proof.
  intros p qs o. split; [|split; [|split]].
  1-3: subst o; unfold np_applies; revert p; induction qs as [|q qs IH]; intros p; [reflexivity|]; cbn [fold_left last_set]; rewrite IH; destruct q; reflexivity.
  intros gs rep n H Hn. split; [exact (separators_count_ok _ _ _ _ H Hn)|]. split; [exact (any_separator_ok _ _ _ _ H Hn)|reflexivity].
Qed.
(* constructed from group sizes (the last one repeats), or with none: commas and a dot *)
Theorem C67_numpunct_constructor : forall gs, valid_groups gs ->
  exists p, numpunct_for gs = Some p /\ represents (np_grouping p) gs (match gs with [] => false | _ => true end) /\ np_point p = 46 /\ np_sep p = 44.
Proof.
  intros [|g gs] H.
  - exists numpunct_default. split; [reflexivity|]. split; [|split; reflexivity]. split; [exact H|]. split; reflexivity.
  - destruct (C38_args_repeat (g :: gs) H ltac:(discriminate)) as (x & E & R). cbn [numpunct_for]. unfold numpunct_args. rewrite E. cbn [obind]. eexists. split; [reflexivity|]. cbn. auto.
Qed.
(* constructed from a grouping: the same, and it separates the groups of that grouping *)
Theorem C67_numpunct_of_grouping : forall g gs rep n, represents g gs rep -> 0 <= n -> let o := np_observed (numpunct_of g) in
  ob_point o = 46 /\ ob_sep o = 44 /\ represents (ob_grouping o) gs rep /\
  ob_count o n = Some (boundaries_below (boundary gs rep) (Z.to_nat n)).
Proof. intros g gs rep n H Hn. split; [reflexivity|]. split; [reflexivity|]. split; [exact H|]. exact (separators_count_ok _ _ _ _ H Hn). Qed.
(* == says whether the groups and the two characters are the same *)
Theorem C67_numpunct_equal : forall p p' gs gs' rep rep', represents (np_grouping p) gs rep -> represents (np_grouping p') gs' rep' ->
  np_eq p p' = true <-> gs = gs' /\ rep = rep' /\ np_point p = np_point p' /\ np_sep p = np_sep p'.
Proof.
  intros p p' gs gs' rep rep' H H'. unfold np_eq. rewrite !andb_true_iff, !Z.eqb_eq. split.
  - intros [[A B] C]. rewrite A in H. destruct (represents_inj _ _ _ _ _ H H') as [-> ->]. auto.
  - intros (-> & -> & B & C). destruct H as (_ & _ & ->). destruct H' as (_ & _ & ->). auto.
Qed.
(* default_numpunct and no_grouping behave as a numpunct without groups, and so does what they
   convert to *)
Theorem C67_no_groups : forall o, o = default_observed \/ (exists p, o = ng_observed p) \/ o = np_observed default_to_numpunct \/ (exists p, o = np_observed (ng_to_numpunct p)) ->
  represents (ob_grouping o) [] false /\ ob_sep o = 44 /\ ob_point o = 46 /\
  (forall n, ob_distribute o n = Some (mk_dist 0 0 n) /\ ob_any o n = false /\ ob_count o n = Some 0).
Proof.
  intros o H. assert (R : represents grouping_empty [] false) by (split; [split; [constructor|cbn; lia]|split; reflexivity]).
  destruct H as [->|[[p ->]|[->|[p ->]]]]; (split; [exact R|]; split; [reflexivity|]; split; [reflexivity|]; intros n; try (repeat split; fail); apply empty_observed).
Qed.
(* no_grouping: "it is only possible to change its decimal point" (docs), but the one set is not
   given back, nor kept by the conversion, and == compares it *)
Theorem C67_no_grouping_refuted :
  ob_point (ng_observed (ng_set_point ng_braces 44)) <> 44 /\
  np_point (ng_to_numpunct (ng_set_point ng_braces 44)) <> 44 /\
  ng_eq (ng_set_point ng_braces 46) ng_braces = Some false /\ ng_eq ng_declared ng_declared = None.
Proof. cbn. repeat split; discriminate. Qed.
(* what is true: once both have been set, == says whether the same value was *)
Theorem C67_no_grouping_equal_partial : forall p p' c c', ng_eq (ng_set_point p c) (ng_set_point p' c') = Some (c =? c').
Proof. reflexivity. Qed.

(* The predefined facets: all are well formed (no assertion fails), group as their list of sizes
   says, and a separator is never the decimal point *)
Theorem C67_predefined : forall name args calls, In (name, args, calls) predefined ->
  exists p, predefined_numpunct (name, args, calls) = Some p /\ represents (np_grouping p) args (match args with [] => false | _ => true end) /\
    (args <> [] -> np_sep p <> np_point p) /\ In (np_sep p) [44; 46; 39; 0x202f; 0x66c] /\ In (np_point p) [44; 46; 0x66b].
Proof. exact (fun name args calls => predefined_ok (name, args, calls)). Qed.
(* and an integer is printed with any of them, in any UTF, as C35-C39 say *)
Theorem C67_predefined_integer : forall name args calls p form clz lc f al sgn s v, In (name, args, calls) predefined -> predefined_numpunct (name, args, calls) = Some p ->
  let F := mk_facets clz (utf_charset form) lc (fun _ => np_grouping p) (fun _ => np_sep p) in
  in_int sgn (sbits s) v -> align_ok (align_of al) -> opts_ok (opts_of f) ->
  exists q, int_print F f al sgn s v = Some q /\
    let r := request_of F (fun _ => args) (fun _ => match args with [] => false | _ => true end) f al sgn s v in
    ops_text (pr_ops q) = int_text r /\ pr_size q = zlen (int_text r) /\ pr_width q = int_text_width r.
Proof.
  intros name args calls p form clz lc f al sgn s v HI HP F Hv HA HO. destruct (predefined_ok _ HI) as (p' & HP' & HR & _ & HS & _). cbn [fst snd] in *. assert (p' = p) by congruence. subst p'.
  assert (HF : facets_ok F (fun _ => args) (fun _ => match args with [] => false | _ => true end)).
  { split; [apply utf_charset_ok|intros b; exact HR|]. intros b. cbn. cbn in HS. lia. }
  destruct (int_print_ok F _ _ f al sgn s v HF Hv HA HO) as (q & E & Q & _).
  - unfold sep_ok. cbn [F if_sep if_cs]. cbn in HS. destruct HS as [<-|[<-|[<-|[<-|[<-|[]]]]]]; try (left; lia); right; left; destruct form; vm_compute; discriminate.
  - exists q. split; [exact E|exact Q].
Qed.
Example C67_ex : exists p, In ("en_IN", [3; 2], [SetPoint 46; SetSep 44])%string predefined /\ predefined_numpunct ("en_IN", [3; 2], [SetPoint 46; SetSep 44])%string = Some p /\
  option_map (fun q => ops_text (pr_ops q)) (int_print (mk_facets true (utf_charset U8) LLower (fun _ => np_grouping p) (fun _ => np_sep p)) (FStatic B10 true 0 0 NegativeOnly false) None true S4 1234567890)
  = Some [49;44;50;51;44;52;53;44;54;55;44;56;57;48].
Proof.
  eexists. split; [|split; [reflexivity|vm_compute; reflexivity]].
  apply (nth_error_In predefined 86%nat). reflexivity.
Qed.
Print Assumptions C67_numpunct.
Print Assumptions C67_numpunct_constructor.
Print Assumptions C67_numpunct_of_grouping.
Print Assumptions C67_numpunct_equal.
Print Assumptions C67_no_groups.
Print Assumptions C67_no_grouping_refuted.
Print Assumptions C67_no_grouping_equal_partial.
Print Assumptions C67_predefined.
Print Assumptions C67_predefined_integer.
