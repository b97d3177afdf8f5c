From Coq Require Import String List.
From Verif Require Import Base UtfForms GroupSpec GroupModel GroupProofs DigitsModel CharsetModel IntSpec IntModel IntProofs PunctModel.
Import ListNotations.

Lemma pack_inj rep rep' : forall gs gs', groups_ok gs -> groups_ok gs' -> (gs = [] -> rep = false) -> (gs' = [] -> rep' = false) -> pack gs rep = pack gs' rep' ->
  (gs = [] <-> gs' = []) -> gs = gs' /\ (gs <> [] -> rep = rep').
Proof.
  induction gs as [|g gs IH]; intros gs' H H' E E' EQ HN.
  - rewrite (proj1 HN eq_refl). split; [reflexivity|congruence].
  - destruct gs' as [|g' gs']; [discriminate (proj2 HN eq_refl)|]. inversion H; inversion H'; subst. cbn [pack] in EQ.
    assert (g = g' /\ pack gs rep = pack gs' rep') as [-> EP] by (clear - EQ H2 H6; lia).
    destruct (pack_ge gs rep H3) as [_ A]. destruct (pack_ge gs' rep' H7) as [_ B].
    destruct gs as [|x gs], gs' as [|x' gs'].
    + cbn in EP. split; [reflexivity|]. intros _. destruct rep, rep'; congruence.
    + exfalso. specialize (B ltac:(discriminate)). cbn [pack] in *. destruct rep; lia.
    + exfalso. specialize (A ltac:(discriminate)). cbn [pack] in *. destruct rep'; lia.
    + destruct (IH (x' :: gs')) as [-> R]; try assumption; try discriminate; [split; discriminate|]. split; [reflexivity|]. intros _. apply R. discriminate.
Qed.
Lemma represents_inj g gs rep gs' rep' : represents g gs rep -> represents g gs' rep' -> gs = gs' /\ rep = rep'.
Proof.
  intros ((V & _) & E & P) ((V' & _) & E' & P').
  destruct (pack_ge gs rep V) as [_ A]. destruct (pack_ge gs' rep' V') as [_ B].
  assert (HN : gs = [] <-> gs' = []).
  { split; intros ->.
    - destruct gs' as [|x l]; [reflexivity|]. specialize (B ltac:(discriminate)). rewrite E in P by reflexivity. cbn in P. lia.
    - destruct gs as [|x l]; [reflexivity|]. specialize (A ltac:(discriminate)). rewrite E' in P' by reflexivity. cbn in P'. lia. }
  destruct (pack_inj rep rep' gs gs' V V' E E' ltac:(congruence) HN) as [-> R]. split; [reflexivity|].
  destruct gs'; [rewrite E, E' by reflexivity; reflexivity|apply R; discriminate].
Qed.
Definition entry_fine (e : string * list Z * list np_call) : bool :=
  match predefined_numpunct e with
  | Some p =>
      let args := snd (fst e) in
      (np_grouping p =? pack args (match args with [] => false | _ => true end)) && forallb (fun g => (1 <=? g) && (g <=? 31)) args && (length args <=? 6)%nat &&
      ((match args with [] => true | _ => negb (np_sep p =? np_point p) end)) &&
      (existsb (Z.eqb (np_sep p)) [44; 46; 39; 0x202f; 0x66c]) && (existsb (Z.eqb (np_point p)) [44; 46; 0x66b])
  | None => false
  end.
Lemma all_fine : forallb entry_fine predefined = true.
Proof. vm_compute. reflexivity. Qed.
Lemma predefined_ok e : In e predefined -> let args := snd (fst e) in
  exists p, predefined_numpunct e = Some p /\ represents (np_grouping p) args (match args with [] => false | _ => true end) /\
    (args <> [] -> np_sep p <> np_point p) /\ In (np_sep p) [44; 46; 39; 0x202f; 0x66c] /\ In (np_point p) [44; 46; 0x66b].
Proof.
  intros HI args. pose proof (proj1 (forallb_forall _ _) all_fine e HI) as H. unfold entry_fine in H. destruct (predefined_numpunct e) as [p|]; [|discriminate].
  apply andb_prop in H as [H H6]. apply andb_prop in H as [H H5]. apply andb_prop in H as [H H4]. apply andb_prop in H as [H H3]. apply andb_prop in H as [H1 H2]. fold args in H1, H2, H3, H4.
  exists p. split; [reflexivity|]. split; [|split; [|split]].
  - split; [split|split].
    + apply Forall_forall. intros x HX. apply (proj1 (forallb_forall _ _) H2) in HX. lia.
    + apply Nat.leb_le, H3.
    + intros ->. reflexivity.
    + apply Z.eqb_eq, H1.
  - intros HN. destruct args; [congruence|]. apply negb_true_iff, Z.eqb_neq in H4. exact H4.
  - apply existsb_exists in H5. destruct H5 as (x & HX & E). apply Z.eqb_eq in E. congruence.
  - apply existsb_exists in H6. destruct H6 as (x & HX & E). apply Z.eqb_eq in E. congruence.
Qed.
Lemma empty_observed n : distribute grouping_empty n = Some (mk_dist 0 0 n) /\ any_separator grouping_empty n = false /\ separators_count grouping_empty n = Some 0.
Proof. split; [reflexivity|]. split; [reflexivity|]. unfold separators_count. destruct (n <=? 1); reflexivity. Qed.
