From Coq Require Import Permutation.
From Verif Require Import Base WidthModel DestModel DestProofs PrintModel PrintSpec PrintProofs ToModel.

Lemma no_pre_ok M d : pre_ok M no_pre d.
Proof. split; exact I. Qed.
Lemma added_no_pre d p' : added no_pre d p' -> p' = no_pre.
Proof. intros [A B]. cbn in *. destruct p' as [z w]. cbn in *. subst. destruct w as [[? ?]|]; [contradiction|reflexivity]. Qed.

Lemma print_printables_ok M args ds : Forall2 (arg_ok M) args ds -> prints_text (print_printables args) (concat (map d_text ds)).
Proof.
  intros HF0. apply prints_by. induction HF0 as [|a d args ds HA HF IH]; intros S ops R ok L s u H K; cbn [print_printables map concat] in *.
  - exists s. rewrite app_nil_r. auto.
  - destruct HA as (_ & _ & HA). destruct (HA no_pre (no_pre_ok M d)) as (p' & pr & E & HT & _). rewrite E. cbn [obind snd].
    destruct (prints_use _ _ HT S ops R ok L s u H (laws_cut _ _ _ _ _ _ _ L H K)) as (s1 & E1 & H1). rewrite E1. cbn [obind]. rewrite app_assoc in K |- *. destruct (d_good ops s1) eqn:G.
    + apply (IH S ops R ok L); assumption.
    + exists s1. split; [reflexivity|]. apply (laws_bad ops R ok); assumption.
Qed.
Definition eol_text (eol : bool) : list Z := if eol then [10] else [].
Lemma p_eol_ok eol : prints_text (p_eol eol) (eol_text eol).
Proof. destruct eol; [apply (prints_op (OPut 10)); exact I|apply prints_nothing]. Qed.
Lemma print_args_ok M eol args ds : Forall2 (arg_ok M) args ds -> prints_text (print_args eol args) (concat (map d_text ds) ++ eol_text eol).
Proof. intros H. apply prints_seq; [apply (print_printables_ok M); exact H|apply p_eol_ok]. Qed.

(* positions *)
Definition at_pos {A} (l : list A) (from : nat) : list (nat * A) := combine (seq from (length l)) l.
Lemma make_in_order_ok M todo ds : Forall2 (fun a d => fst a = fst d /\ arg_ok M (snd a) (snd d)) todo ds ->
  forall p z, p = mk_pre (Some z) None -> 0 <= z < 2 ^ 64 ->
  exists ps, make_in_order todo p = Some (mk_pre (Some ((z + zlen (concat (map (fun d => d_text (snd d)) ds))) mod 2 ^ 64)) None, ps) /\
    Forall2 (fun a d => fst a = fst d /\ prints_text (snd a) (d_text (snd d))) ps ds.
Proof.
  induction 1 as [|[i a] [j d] todo ds [Hi HA] HF IH]; intros p z -> Hz; cbn [make_in_order map concat].
  - exists []. split; [|constructor]. rewrite zlen_nil, Z.add_0_r, Z.mod_small by exact Hz. reflexivity.
  - cbn [fst snd] in *. subst j. destruct HA as (_ & _ & HA). destruct (HA (mk_pre (Some z) None)) as (p' & pr & E & HT & A1 & A2); [split; [exact Hz|exact I]|].
    rewrite E. cbn [obind fst snd]. cbn [p_size p_width] in *. destruct p' as [z' w']. cbn [p_size p_width] in *. subst z'. destruct w' as [[? ?]|]; [contradiction|]. cbn [option_map] in *.
    destruct (IH _ _ eq_refl (Z.mod_pos_bound (z + zlen (d_text d)) (2 ^ 64) ltac:(lia))) as (ps & E2 & HP). rewrite E2. cbn [obind fst snd].
    exists ((i, pr) :: ps). split; [|constructor; [split; [reflexivity|exact HT]|exact HP]]. do 4 f_equal. rewrite zlen_app, Zplus_mod_idemp_l. f_equal. lia.
Qed.
Lemma lookup_app i ps qs : lookup i (ps ++ qs) = match lookup i ps with Some x => Some x | None => lookup i qs end.
Proof. induction ps as [|[j p] ps IH]; cbn [lookup app]; [reflexivity|]. destruct (i =? j)%nat; [reflexivity|exact IH]. Qed.
Lemma lookup_ok ps (ds : list (nat * desc)) i d : Forall2 (fun a d => fst a = fst d /\ prints_text (snd a) (d_text (snd d))) ps ds ->
  NoDup (map fst ds) -> In (i, d) ds -> exists pr, lookup i ps = Some pr /\ prints_text pr (d_text d).
Proof.
  induction 1 as [|[j p] [j' d'] ps ds [Hj HP] HF IH]; intros HN HI; [destruct HI|]. cbn [fst snd map] in *. subst j'. inversion HN as [|? ? HN1 HN2]; subst.
  cbn [lookup]. destruct HI as [HI|HI].
  - injection HI as <- <-. rewrite Nat.eqb_refl. eauto.
  - destruct (Nat.eqb_spec i j) as [->|]; [|apply IH; assumption]. exfalso. apply HN1. apply (in_map fst) in HI. exact HI.
Qed.
Lemma at_pos_fst {A} (l : list A) : forall from, map fst (at_pos l from) = seq from (length l).
Proof. unfold at_pos. induction l as [|x l IH]; intros from; cbn; [reflexivity|]. f_equal. apply IH. Qed.
Lemma in_position_ok ps ds0 : (forall i d, In (i, d) ds0 -> exists pr, lookup i ps = Some pr /\ prints_text pr (d_text d)) ->
  forall ds from, (forall x, In x (at_pos ds from) -> In x ds0) -> exists l, in_position (length ds) from ps = Some l /\ Forall2 prints_text l (map d_text ds).
Proof.
  intros HL. induction ds as [|d ds IH]; intros from HI; cbn [in_position length map]; [eexists; split; [reflexivity|constructor]|].
  destruct (HL from d) as (pr & E & HP); [apply HI; left; reflexivity|]. rewrite E. cbn [obind].
  destruct (IH (Datatypes.S from)) as (l & E2 & HF); [intros x Hx; apply HI; right; exact Hx|]. rewrite E2. cbn [obind]. eexists. split; [reflexivity|]. constructor; assumption.
Qed.
Lemma at_pos_forall2 M args ds : Forall2 (arg_ok M) args ds -> forall from, Forall2 (fun a d => fst a = fst d /\ arg_ok M (snd a) (snd d)) (at_pos args from) (at_pos ds from).
Proof. unfold at_pos. induction 1 as [|a d args ds HA HF IH]; intros from; cbn; [constructor|]. constructor; [split; [reflexivity|exact HA]|apply IH]. Qed.
Lemma at_pos_texts (ds : list desc) : forall from, map (fun d => d_text (snd d)) (at_pos ds from) = map d_text ds.
Proof. unfold at_pos. induction ds as [|d ds IH]; intros from; cbn; [reflexivity|]. f_equal. apply IH. Qed.

Lemma calc_ok M eol args ds todo : Forall2 (arg_ok M) args ds -> Permutation (at_pos args 0) todo ->
  let t := concat (map d_text ds) ++ eol_text eol in
  exists pr, calc_and_print eol args todo = Some (zlen t mod 2 ^ 64, pr) /\ prints_text pr t.
Proof.
  intros HA HP t. pose proof (at_pos_forall2 M args ds HA 0) as H2. destruct (Forall2_perm _ _ _ _ H2 HP) as (ds' & P1 & P2).
  destruct (make_in_order_ok M todo ds' P2 _ 0 eq_refl ltac:(lia)) as (ps & E & HPs). unfold calc_and_print. rewrite E. cbn [obind fst snd accumulated_size p_size].
  assert (length args = length ds) as EL by (clear - HA; induction HA; cbn; congruence).
  destruct (in_position_ok ps ds') with (ds := ds) (from := O) as (l & E2 & HF).
  { intros i d HI. apply (lookup_ok ps ds'); [exact HPs| |exact HI]. eapply Permutation_NoDup; [apply Permutation_map; exact P1|]. rewrite at_pos_fst. apply seq_NoDup. }
  { intros x Hx. eapply Permutation_in; eassumption. }
  rewrite EL, E2. cbn [obind]. eexists. split; [|apply prints_seq; [apply call_printers_ok; exact HF|apply p_eol_ok]].
  f_equal. f_equal. rewrite <- (concat_len_perm (map (fun d => d_text (snd d)) (at_pos ds 0))) by (apply Permutation_map; exact P1). rewrite at_pos_texts.
  unfold t, to_u. rewrite zlen_app. rewrite Z.add_0_l, Zplus_mod_idemp_l. f_equal. f_equal. destruct eol; reflexivity.
Qed.
