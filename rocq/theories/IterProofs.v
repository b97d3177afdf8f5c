From Verif Require Import Base DestModel DestProofs PrintModel PrintSpec RoomProofs PrintProofs IterModel.
From Coq Require Import List.

Definition assigned_of (l : list iter_op) : list Z := flat_map (fun i => match i with IAssign c => [c] | _ => [] end) l.
Lemma p_iter_cons i l S (ops : dest_ops S) s : p_iter (i :: l) S ops s = do s1 <- iter_step ops s i ; p_iter l S ops s1.
Proof.
  unfold p_iter. cbn [fold_left obind]. destruct (iter_step ops s i) as [s1|]; [reflexivity|]. cbn [obind].
  induction l as [|j l IH]; [reflexivity|exact IH].
Qed.
Lemma p_iter_puts l S (ops : dest_ops S) : forall s, p_iter l S ops s = run ops s (map OPut (assigned_of l)).
Proof.
  induction l as [|i l IH]; intros s; [reflexivity|]. rewrite p_iter_cons. destruct i; cbn [iter_step obind assigned_of flat_map app map]; try apply IH.
  cbn [run run_op]. destruct (put ops s c); [|reflexivity]. apply IH.
Qed.
Lemma puts_text t : ops_text (map OPut t) = t.
Proof. unfold ops_text. induction t as [|c t IH]; [reflexivity|]. cbn. rewrite IH. reflexivity. Qed.
Lemma iter_prints l : prints_text (p_iter l) (assigned_of l).
Proof.
  assert (P : prints_text (p_ops (map OPut (assigned_of l))) (assigned_of l)).
  { rewrite <- (puts_text (assigned_of l)) at 2. apply prints_ops; [|apply tight_frugal];
      apply Forall_forall; intros o HI; apply in_map_iff in HI; destruct HI as (c & <- & _); exact I. }
  apply prints_by. intros S ops R ok L s u H K. rewrite p_iter_puts. exact (prints_use _ _ P S ops R ok L s u H K).
Qed.

(* ---- fixed-size destinations, unit by unit ---- *)
Definition put_inv (k : nat) (buf0 : list Z) (s : cstr) (t : list Z) : Prop :=
  let m := (length buf0 - k)%nat in
  c_good s = (length t <=? m)%nat /\
  if (length t <=? m)%nat then c_region s = true /\ c_ptr s = length t /\ c_end s = m /\ c_buf s = t ++ skipn (length t) buf0
  else c_region s = false /\ (c_ptr s <= 64)%nat /\ c_end s = 64%nat /\ c_it s = Some (true, m) /\ c_buf s = firstn m t ++ skipn m buf0.
Lemma skipn_app_exact {A} (l r : list A) n : n = length l -> skipn n (l ++ r) = r.
Proof. intros ->. rewrite skipn_app, skipn_all, Nat.sub_diag. reflexivity. Qed.
Lemma skipn_skipn {A} (l : list A) : forall a b, skipn a (skipn b l) = skipn (a + b) l.
Proof.
  intros a b. revert l. induction b as [|b IH]; intros l; [rewrite Nat.add_0_r; reflexivity|]. destruct l as [|x l]; [rewrite !skipn_nil; reflexivity|].
  rewrite Nat.add_succ_r. cbn [skipn]. apply IH.
Qed.
Lemma put_inv_step k buf0 s t c : (k <= length buf0)%nat -> put_inv k buf0 s t ->
  exists s', put cstr_ops s c = Some s' /\ put_inv k buf0 s' (t ++ [c]).
Proof.
  unfold put_inv. intros Hk. set (m := (length buf0 - k)%nat). rewrite app_length. cbn [length].
  unfold put, flush_min. cbn [cstr_ops d_space d_emit d_recycle]. cbv zeta.
  destruct (Nat.leb_spec (length t) m) as [L|L].
  - intros (G & Rg & P & E & B).
    destruct (Nat.leb_spec (length t + 1) m) as [L1|L1].
    + replace (c_end s - c_ptr s =? 0)%nat with false by (symmetry; apply Nat.eqb_neq; lia).
      unfold cstr_emit. rewrite Rg, P, E. cbn [length]. replace (length t + 1 <=? m)%nat with true by (symmetry; apply Nat.leb_le; lia).
      assert (LB : length (c_buf s) = length buf0) by (rewrite B, app_length, skipn_length; subst m; lia).
      replace (length t + 1 <=? length (c_buf s))%nat with true by (symmetry; apply Nat.leb_le; rewrite LB; subst m; lia).
      eexists. split; [reflexivity|]. cbn. rewrite G. repeat split; try assumption.
      rewrite B. unfold store. rewrite firstn_app, Nat.sub_diag, firstn_all. cbn [firstn]. rewrite app_nil_r, <- !app_assoc. f_equal. cbn [length app]. f_equal.
      rewrite skipn_app. rewrite (skipn_all2 t) by lia. cbn [app]. rewrite skipn_skipn. f_equal. lia.
    + replace (c_end s - c_ptr s =? 0)%nat with true by (symmetry; apply Nat.eqb_eq; lia).
      unfold cstr_recycle. rewrite G. unfold cstr_emit, garbage_size. cbn. eexists. split; [reflexivity|]. cbn. repeat split; try lia.
      * rewrite Rg, P. do 2 f_equal. lia.
      * rewrite B. assert (length t = m) by lia. rewrite firstn_app. replace (m - length t)%nat with 0%nat by lia. cbn [firstn]. rewrite app_nil_r. rewrite firstn_all2 by lia. congruence.
  - intros (G & Rg & P & E & It & B). replace (length t + 1 <=? m)%nat with false by (symmetry; apply Nat.leb_gt; lia).
    assert (FN : firstn m (t ++ [c]) = firstn m t) by (rewrite firstn_app; replace (m - length t)%nat with 0%nat by lia; cbn [firstn]; apply app_nil_r).
    rewrite FN.
    destruct (Nat.eqb_spec (c_end s - c_ptr s) 0) as [Z0|Z0].
    + unfold cstr_recycle. rewrite G. unfold cstr_emit, garbage_size. cbn. rewrite E. cbn. eexists. split; [reflexivity|]. cbn. rewrite It, B. repeat split; lia.
    + unfold cstr_emit, garbage_size. rewrite Rg, E. cbn [length]. replace (c_ptr s + 1 <=? 64)%nat with true by (symmetry; apply Nat.leb_le; lia).
      eexists. split; [reflexivity|]. cbn. rewrite It, B. repeat split; try assumption; lia.
Qed.
Lemma put_inv_run k buf0 ts : (k <= length buf0)%nat -> forall s t, put_inv k buf0 s t ->
  exists s', run cstr_ops s (map OPut ts) = Some s' /\ put_inv k buf0 s' (t ++ ts).
Proof.
  intros Hk. induction ts as [|c ts IH]; intros s t H; cbn [map run run_op].
  - exists s. rewrite app_nil_r. auto.
  - destruct (put_inv_step k buf0 s t c Hk H) as (s1 & -> & H1). cbn [obind]. destruct (IH s1 _ H1) as (s2 & E & H2). exists s2. rewrite <- app_assoc in H2. auto.
Qed.
Lemma iter_fixed k buf0 l s : (k <= length buf0)%nat -> put_inv k buf0 s [] ->
  exists s', p_iter l _ cstr_ops s = Some s' /\ put_inv k buf0 s' (assigned_of l).
Proof. intros Hk H. rewrite p_iter_puts. exact (put_inv_run k buf0 _ Hk s [] H). Qed.
