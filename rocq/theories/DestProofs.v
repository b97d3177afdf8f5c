(* The destination contract, and its consequences for put / write / fill / copy
   and arbitrary histories; each destination class is shown to satisfy it. *)
From Verif Require Import Base DestModel.

(* [R s t]: "s is a state the destination may be in after being given the text t".
   The contract: *)
Record dest_laws {S} (ops : dest_ops S) (R : S -> list Z -> Prop) (dw_pre : S -> Prop) : Prop := {
  law_emit : forall s t u, R s t -> (length u <= d_space ops s)%nat ->
     exists s', d_emit ops s u = Some s' /\ R s' (t ++ u)
                /\ d_space ops s' = (d_space ops s - length u)%nat /\ d_good ops s' = d_good ops s;
  law_recycle : forall s t, R s t -> R (d_recycle ops s) t /\ (64 <= d_space ops (d_recycle ops s))%nat;
  (* a destination that is not good may drop text *)
  law_bad : forall s t u, R s t -> d_good ops s = false -> R s (t ++ u);
  law_do_write : forall s t u, R s t -> dw_pre s -> (d_space ops s < length u)%nat ->
     exists s', d_do_write ops s u = Some s' /\ R s' (t ++ u)
}.
(* the contract without restriction on do_write *)
Definition full_laws {S} (ops : dest_ops S) (R : S -> list Z -> Prop) := dest_laws ops R (fun _ => True).

Section Gen.
Context {S : Type} (ops : dest_ops S) (R : S -> list Z -> Prop) (pre : S -> Prop)
        (L : dest_laws ops R pre).

Lemma recycle_R s t : R s t -> R (d_recycle ops s) t.
Proof. intros H; apply (law_recycle _ _ _ L); exact H. Qed.
Lemma recycle_space s t : R s t -> (64 <= d_space ops (d_recycle ops s))%nat.
Proof. intros H; apply (law_recycle _ _ _ L s t); exact H. Qed.

Lemma ensure_ok n s t : R s t -> (n <= 64)%nat ->
  exists s1, ensure ops n s = Some s1 /\ R s1 t /\ (n <= d_space ops s1)%nat.
Proof.
  intros H Hn; unfold ensure. destruct (Nat.ltb_spec 64 n); [lia|]. cbv zeta.
  destruct (Nat.ltb_spec (d_space ops s) n).
  - pose proof (recycle_space s t H). destruct (Nat.ltb_spec (d_space ops (d_recycle ops s)) n); [lia|].
    eexists; split; [reflexivity|]. split; [apply recycle_R; exact H|assumption].
  - destruct (Nat.ltb_spec (d_space ops s) n); [lia|]. eauto.
Qed.
Lemma flush_is m s t : R s t -> (m <= 64)%nat -> flush_min ops m s = Some (d_recycle ops s).
Proof.
  intros H Hm. unfold flush_min. cbv zeta. pose proof (recycle_space s t H). destruct (Nat.ltb_spec (d_space ops (d_recycle ops s)) m); [lia|reflexivity].
Qed.
Lemma flush_ok s t : R s t -> exists s1, flush ops s = Some s1 /\ R s1 t.
Proof.
  intros H. unfold flush. rewrite (flush_is 64 s t H) by lia. eexists; split; [reflexivity|]. apply recycle_R; exact H.
Qed.

Lemma put_ok s t c : R s t -> exists s', put ops s c = Some s' /\ R s' (t ++ [c]).
Proof.
  intros H; unfold put.
  destruct (Nat.eqb_spec (d_space ops s) 0).
  - rewrite (flush_is 1 s t H) by lia. cbn [obind]. destruct (law_emit _ _ _ L (d_recycle ops s) t [c] (recycle_R _ _ H)) as (s' & E & HR & _);
      [pose proof (recycle_space s t H); cbn; lia | eauto].
  - destruct (law_emit _ _ _ L s t [c] H) as (s' & E & HR & _); [cbn; lia | eauto].
Qed.

Lemma write_ok s t u : R s t -> (length u <= d_space ops s)%nat \/ pre s ->
  exists s', write ops s u = Some s' /\ R s' (t ++ u).
Proof.
  intros H Hp; unfold write.
  destruct (Nat.ltb_spec 0 (length u)) as [Hl|Hl].
  - destruct (Nat.leb_spec (length u) (d_space ops s)) as [Hs|Hs].
    + destruct (law_emit _ _ _ L s t u H Hs) as (s' & E & HR & _); eauto.
    + destruct (law_do_write _ _ _ L s t u H) as (s' & E & HR); [destruct Hp; [lia|assumption]|lia|eauto].
  - destruct u; [|cbn in Hl; lia]. exists s; split; [reflexivity|]. rewrite app_nil_r; exact H.
Qed.

Lemma base_do_write_ok fuel : forall s t u, R s t -> (length u < fuel)%nat ->
  exists s', base_do_write ops fuel s u = Some s' /\ R s' (t ++ u).
Proof.
  (* invariant: either the space is positive or one more unit of fuel is left *)
  assert (Hmain : forall fuel s t u, R s t -> (length u < fuel)%nat ->
     (0 < d_space ops s)%nat \/ (length u + 1 < fuel)%nat ->
     exists s', base_do_write ops fuel s u = Some s' /\ R s' (t ++ u)).
  { clear fuel. induction fuel as [|fuel IH]; intros s t u H Hl Hor; [lia|].
    cbn [base_do_write].
    set (sub := Nat.min (length u) (d_space ops s)).
    destruct (law_emit _ _ _ L s t (firstn sub u) H) as (s1 & E1 & R1 & Sp1 & G1);
      [rewrite firstn_length; lia|].
    rewrite E1; cbn [obind].
    assert (Hu : u = firstn sub u ++ skipn sub u) by (symmetry; apply firstn_skipn).
    destruct (skipn sub u) as [|x r] eqn:Er.
    - exists s1; split; [reflexivity|]. rewrite app_nil_r in Hu. rewrite Hu. exact R1.
    - assert (Hsub : sub = d_space ops s).
      { assert (length (skipn sub u) = length (x :: r)) as Hk by (rewrite Er; reflexivity).
        rewrite skipn_length in Hk; cbn [length] in Hk; lia. }
      assert (Hlen : (length (x :: r) = length u - sub)%nat) by (rewrite <- Er; apply skipn_length).
      rewrite (flush_is 1 s1 _ R1) by lia. cbn [obind]. set (s2 := d_recycle ops s1) in *.
      assert (R2 : R s2 (t ++ firstn sub u)) by (apply recycle_R; exact R1).
      assert (P2 : (64 <= d_space ops s2)%nat) by (eapply recycle_space; exact R1).
      destruct (d_good ops s2) eqn:G2.
      + destruct (IH s2 (t ++ firstn sub u) (x :: r) R2) as (s' & E' & R'); [lia|lia|].
        exists s'; split; [exact E'|]. rewrite Hu, app_assoc. exact R'.
      + exists s2; split; [reflexivity|]. rewrite Hu, app_assoc.
        apply (law_bad _ _ _ L); assumption. }
  intros s t u H Hl. destruct (Nat.eq_dec (d_space ops s) 0) as [Hz|Hz].
  2: { apply Hmain; [assumption|lia|left; lia]. }
  (* no space: first iteration writes nothing *)
  destruct fuel as [|fuel]; [lia|]. cbn [base_do_write].
  rewrite Hz, Nat.min_0_r. cbn [firstn skipn].
  destruct (law_emit _ _ _ L s t [] H) as (s1 & E1 & R1 & Sp1 & G1); [cbn; lia|].
  rewrite E1; cbn [obind]. rewrite app_nil_r in R1.
  destruct u as [|x r]; [exists s1; rewrite app_nil_r; eauto|].
  rewrite (flush_is 1 s1 _ R1) by lia. cbn [obind]. set (s2 := d_recycle ops s1) in *.
  assert (R2 : R s2 t) by (apply recycle_R; exact R1).
  assert (P2 : (64 <= d_space ops s2)%nat) by (eapply recycle_space; exact R1).
  destruct (d_good ops s2) eqn:G2; [|exists s2; split; [reflexivity|apply (law_bad _ _ _ L); assumption]].
  destruct fuel as [|fuel]; [cbn in Hl; lia|].
  (* now use the main lemma with the remaining fuel, which is at least the length *)
  cbn [base_do_write].
  set (u := x :: r) in *. set (sub := Nat.min (length u) (d_space ops s2)).
  destruct (law_emit _ _ _ L s2 t (firstn sub u) R2) as (s3 & E3 & R3 & Sp3 & G3);
      [rewrite firstn_length; lia|].
  rewrite E3; cbn [obind].
  assert (Hu : u = firstn sub u ++ skipn sub u) by (symmetry; apply firstn_skipn).
  destruct (skipn sub u) as [|x' r'] eqn:Er.
  - exists s3; split; [reflexivity|]. rewrite app_nil_r in Hu. rewrite Hu. exact R3.
  - assert (Hlen : (length (x' :: r') = length u - sub)%nat) by (rewrite <- Er; apply skipn_length).
    assert (Hsub : sub = d_space ops s2) by (cbn [length] in Hlen; lia).
    rewrite (flush_is 1 s3 _ R3) by lia. cbn [obind]. set (s4 := d_recycle ops s3) in *.
    assert (R4 : R s4 (t ++ firstn sub u)) by (apply recycle_R; exact R3).
    assert (P4 : (64 <= d_space ops s4)%nat) by (eapply recycle_space; exact R3).
    destruct (d_good ops s4) eqn:G4.
    + destruct (Hmain fuel s4 (t ++ firstn sub u) (x' :: r') R4) as (s' & E' & R'); [lia|left; lia|].
      exists s'; split; [exact E'|]. rewrite Hu, app_assoc. exact R'.
    + exists s4; split; [reflexivity|]. rewrite Hu, app_assoc. apply (law_bad _ _ _ L); assumption.
Qed.

Lemma interchar_copy_ok_pos fuel : forall s t u, R s t -> (length u <= fuel)%nat ->
  (0 < d_space ops s)%nat ->
  exists s', interchar_copy ops fuel s u = Some s' /\ R s' (t ++ u).
Proof.
  induction fuel as [|fuel IH]; intros s t u H Hl Hsp.
  - destruct u; [|cbn in Hl; lia]. exists s; rewrite app_nil_r; split; [reflexivity|exact H].
  - destruct u as [|x r]; [exists s; rewrite app_nil_r; split; [reflexivity|exact H]|].
    set (u := x :: r) in *.
    change (interchar_copy ops (Datatypes.S fuel) s u) with
      (if (length u <=? d_space ops s)%nat then d_emit ops s u
       else do s1 <- d_emit ops s (firstn (d_space ops s) u) ;
            do s2 <- flush_min ops 1 s1 ;
            (if d_good ops s2 then interchar_copy ops fuel s2 (skipn (d_space ops s) u) else Some s2)).
    destruct (Nat.leb_spec (length u) (d_space ops s)) as [Hs|Hs].
    + destruct (law_emit _ _ _ L s t u H Hs) as (s' & E & HR & _); eauto.
    + set (sp := d_space ops s) in *.
      destruct (law_emit _ _ _ L s t (firstn sp u) H) as (s1 & E1 & R1 & _);
        [rewrite firstn_length; lia|].
      rewrite E1; cbn [obind]. rewrite (flush_is 1 s1 _ R1) by lia. cbn [obind]. set (s2 := d_recycle ops s1).
      assert (R2 : R s2 (t ++ firstn sp u)) by (apply recycle_R; exact R1).
      assert (P2 : (64 <= d_space ops s2)%nat) by (eapply recycle_space; exact R1).
      destruct (d_good ops s2) eqn:G2.
      * destruct (IH s2 (t ++ firstn sp u) (skipn sp u) R2) as (s' & E' & R');
          [rewrite skipn_length; lia|lia|].
        exists s'; split; [exact E'|]. rewrite <- app_assoc, firstn_skipn in R'. exact R'.
      * exists s2; split; [reflexivity|]. rewrite <- (firstn_skipn sp u), app_assoc.
        apply (law_bad _ _ _ L); assumption.
Qed.
Lemma interchar_copy_ok s t u : R s t ->
  exists s', interchar_copy ops (Datatypes.S (length u)) s u = Some s' /\ R s' (t ++ u).
Proof.
  intros H. destruct (Nat.eq_dec (d_space ops s) 0) as [Hz|Hz].
  2: { apply interchar_copy_ok_pos; [assumption|lia|lia]. }
  destruct u as [|x r]; [exists s; rewrite app_nil_r; split; [reflexivity|exact H]|].
  set (u := x :: r) in *.
  change (interchar_copy ops (Datatypes.S (length u)) s u) with
      (if (length u <=? d_space ops s)%nat then d_emit ops s u
       else do s1 <- d_emit ops s (firstn (d_space ops s) u) ;
            do s2 <- flush_min ops 1 s1 ;
            (if d_good ops s2 then interchar_copy ops (length u) s2 (skipn (d_space ops s) u) else Some s2)).
  destruct (Nat.leb_spec (length u) (d_space ops s)) as [Hs|Hs]; [rewrite Hz in Hs; cbn in Hs; lia|].
  rewrite Hz; cbn [firstn skipn].
  destruct (law_emit _ _ _ L s t [] H) as (s1 & E1 & R1 & _); [cbn; lia|].
  rewrite E1; cbn [obind]. rewrite app_nil_r in R1. rewrite (flush_is 1 s1 _ R1) by lia. cbn [obind]. set (s2 := d_recycle ops s1).
  assert (R2 : R s2 t) by (apply recycle_R; exact R1).
  assert (P2 : (64 <= d_space ops s2)%nat) by (eapply recycle_space; exact R1).
  destruct (d_good ops s2) eqn:G2.
  - apply interchar_copy_ok_pos; [assumption|lia|lia].
  - exists s2; split; [reflexivity|]. apply (law_bad _ _ _ L); assumption.
Qed.

Lemma fill_loop_ok fuel : forall s t n c, R s t -> (n < fuel)%nat -> (64 <= d_space ops s)%nat ->
  exists s', fill_loop ops fuel s n c = Some s' /\ R s' (t ++ repeat c n).
Proof.
  induction fuel as [|fuel IH]; intros s t n c H Hl Hsp; [lia|].
  cbn [fill_loop]. destruct (d_good ops s) eqn:G.
  - destruct (Nat.leb_spec n (d_space ops s)) as [Hs|Hs].
    + destruct (law_emit _ _ _ L s t (repeat c n) H) as (s' & E & HR & _);
        [rewrite repeat_length; lia|eauto].
    + set (sp := d_space ops s) in *.
      destruct (law_emit _ _ _ L s t (repeat c sp) H) as (s1 & E1 & R1 & _);
        [rewrite repeat_length; lia|].
      rewrite E1; cbn [obind]. rewrite (flush_is 1 s1 _ R1) by lia. cbn [obind].
      destruct (IH (d_recycle ops s1) (t ++ repeat c sp) (n - sp)%nat c) as (s' & E' & R');
        [apply recycle_R; exact R1|lia|eapply recycle_space; exact R1|].
      exists s'; split; [exact E'|].
      rewrite <- app_assoc, <- repeat_app in R'. replace (sp + (n - sp))%nat with n in R' by lia. exact R'.
  - exists s; split; [reflexivity|]. apply (law_bad _ _ _ L); assumption.
Qed.

Lemma write_fill_ok s t n c : R s t ->
  exists s', write_fill ops s n c = Some s' /\ R s' (t ++ repeat c (Z.to_nat n)).
Proof.
  intros H; unfold write_fill.
  destruct (Z.ltb_spec 0 n) as [Hn|Hn].
  - destruct (Z.leb_spec n (Z.of_nat (d_space ops s))) as [Hs|Hs].
    + destruct (law_emit _ _ _ L s t (repeat c (Z.to_nat n)) H) as (s' & E & HR & _);
        [rewrite repeat_length; lia|eauto].
    + unfold write_fill_continuation. set (sp := d_space ops s) in *.
      destruct (law_emit _ _ _ L s t (repeat c sp) H) as (s1 & E1 & R1 & _);
        [rewrite repeat_length; lia|].
      cbv zeta. rewrite E1; cbn [obind]. rewrite (flush_is 1 s1 _ R1) by lia. cbn [obind].
      destruct (fill_loop_ok (Datatypes.S (Z.to_nat n - sp)) (d_recycle ops s1) (t ++ repeat c sp)
                  (Z.to_nat n - sp) c) as (s' & E' & R');
        [apply recycle_R; exact R1|lia|eapply recycle_space; exact R1|].
      exists s'; split; [exact E'|].
      rewrite <- app_assoc, <- repeat_app in R'.
      replace (sp + (Z.to_nat n - sp))%nat with (Z.to_nat n) in R' by lia. exact R'.
  - exists s; split; [reflexivity|]. replace (Z.to_nat n) with 0%nat by lia.
    cbn [repeat]; rewrite app_nil_r; exact H.
Qed.

Lemma concat_repeat_length {A} (u : list A) n : length (concat (repeat u n)) = (n * length u)%nat.
Proof. induction n; cbn; [reflexivity|]. rewrite app_length, IHn. lia. Qed.

Lemma repeat_sequence_ok fuel : forall s t n seq, R s t -> (1 <= length seq <= 64)%nat ->
  (Z.to_nat n < fuel)%nat -> (64 <= d_space ops s)%nat \/ (Z.to_nat n + 1 < fuel)%nat ->
  exists s', repeat_sequence ops fuel s n seq = Some s' /\ R s' (t ++ concat (repeat seq (Z.to_nat n))).
Proof.
  induction fuel as [|fuel IH]; intros s t n seq H Hq Hf Hsp; [lia|].
  cbn [repeat_sequence]. set (sp := Z.of_nat (d_space ops s) / Z.of_nat (length seq)).
  assert (0 <= sp /\ sp * Z.of_nat (length seq) <= Z.of_nat (d_space ops s)) as [Hs0 Hs1].
  { unfold sp. split; [apply Z.div_pos; lia|].
    pose proof (Z.mul_div_le (Z.of_nat (d_space ops s)) (Z.of_nat (length seq))). lia. }
  assert ((64 <= d_space ops s)%nat -> 1 <= sp) as Hs2.
  { intros HS. unfold sp. apply Z.div_le_lower_bound; lia. }
  clearbody sp.
  destruct (Z.ltb_spec sp n) as [E|E].
  - replace (n <=? sp) with false by (symmetry; apply Z.leb_gt; lia).
    destruct (law_emit _ _ _ L s t (concat (repeat seq (Z.to_nat sp))) H) as (s1 & E1 & R1 & _);
      [rewrite concat_repeat_length; nia|].
    rewrite E1; cbn [obind]. rewrite (flush_is 8 s1 _ R1) by lia. cbn [obind]. destruct (d_good ops (d_recycle ops s1)) eqn:G; cbn [negb].
    + destruct (IH (d_recycle ops s1) (t ++ concat (repeat seq (Z.to_nat sp))) (n - sp) seq) as (s' & E' & R').
      * apply recycle_R; exact R1.
      * exact Hq.
      * destruct Hsp as [Hsp|Hsp]; [specialize (Hs2 Hsp)|]; lia.
      * left. eapply recycle_space; exact R1.
      * exists s'; split; [exact E'|]. rewrite <- app_assoc, <- concat_app, <- repeat_app in R'.
        replace (Z.to_nat sp + Z.to_nat (n - sp))%nat with (Z.to_nat n) in R' by lia. exact R'.
    + eexists; split; [reflexivity|].
      replace (Z.to_nat n) with (Z.to_nat sp + Z.to_nat (n - sp))%nat by lia.
      rewrite repeat_app, concat_app, app_assoc. apply (law_bad _ _ _ L); [|exact G].
      apply recycle_R; exact R1.
  - replace (n <=? sp) with true by (symmetry; apply Z.leb_le; lia).
    destruct (law_emit _ _ _ L s t (concat (repeat seq (Z.to_nat n))) H) as (s1 & E1 & R1 & _);
      [rewrite concat_repeat_length; nia|].
    rewrite E1; cbn [obind]. eauto.
Qed.

Lemma fill_all_loop_ok m c fuel : (m <= 64)%nat -> forall s t n, R s t -> 0 <= n ->
  (Z.to_nat n < fuel)%nat -> (64 <= d_space ops s)%nat \/ (Z.to_nat n + 1 < fuel)%nat ->
  exists s', fill_all_loop ops m fuel s n c = Some s' /\ R s' (t ++ repeat c (Z.to_nat n)).
Proof.
  intros Hm. induction fuel as [|fuel IH]; intros s t n H Hn Hf Hs; [lia|]. cbn [fill_all_loop]. set (sp := d_space ops s) in *.
  destruct (Z.leb_spec n (Z.of_nat sp)).
  - destruct (law_emit _ _ _ L s t (repeat c (Z.to_nat n)) H) as (s' & E & H' & _); [rewrite repeat_length; fold sp; lia|]. eauto.
  - rewrite Nat2Z.id. destruct (law_emit _ _ _ L s t (repeat c sp) H) as (s1 & E & H1 & _); [rewrite repeat_length; fold sp; lia|].
    rewrite E. cbn [obind]. rewrite (flush_is m s1 _ H1 Hm). cbn [obind]. destruct (law_recycle _ _ _ L s1 _ H1) as [H2 H3].
    destruct (IH (d_recycle ops s1) _ (n - Z.of_nat sp) H2) as (s' & E' & H'); [lia|lia|left; exact H3|].
    exists s'. split; [exact E'|]. rewrite <- app_assoc, <- repeat_app in H'. replace (sp + Z.to_nat (n - Z.of_nat sp))%nat with (Z.to_nat n) in H' by lia. exact H'.
Qed.
Lemma fill_all_ok m s t n c : R s t -> (m <= 64)%nat -> 0 <= n ->
  exists s', fill_all ops m s n c = Some s' /\ R s' (t ++ repeat c (Z.to_nat n)).
Proof.
  intros H Hm Hn. unfold fill_all. destruct (Z.ltb_spec n 0); [lia|]. apply fill_all_loop_ok; try assumption; lia.
Qed.

(* the text given by an operation, and its legitimate use *)
Definition op_text (o : op) : list Z :=
  match o with
  | OPut c => [c] | OWrite u => u | OFill n c => repeat c (Z.to_nat n)
  | OReserve _ u => u | OFlush => []
  | OSeqFill n seq => concat (repeat seq (Z.to_nat n))
  | OFillAll n c => repeat c (Z.to_nat n)
  end.
Definition op_wf (o : op) : Prop :=
  match o with OReserve n u => (length u <= n <= 64)%nat
  | OSeqFill _ seq => (1 <= length seq <= 64)%nat | OFillAll n _ => 0 <= n | _ => True end.
Definition ops_text (os : list op) : list Z := concat (map op_text os).

Lemma run_op_ok s t o : R s t -> op_wf o ->
  (match o with OWrite u => (length u <= d_space ops s)%nat \/ pre s | _ => True end) ->
  exists s', run_op ops s o = Some s' /\ R s' (t ++ op_text o).
Proof.
  intros H Hw Hp; destruct o as [c|u|n c|n u| |n seq|n c]; cbn [run_op op_text].
  - apply put_ok; exact H.
  - apply write_ok; assumption.
  - apply write_fill_ok; exact H.
  - cbn [op_wf] in Hw. destruct (ensure_ok n s t H) as (s0 & E0 & HR & Hs); [lia|]. rewrite E0. cbn [obind].
    destruct (law_emit _ _ _ L _ t u HR) as (s' & E & R' & _); [lia|eauto].
  - rewrite app_nil_r; apply flush_ok; exact H.
  - cbn [op_wf] in Hw. apply repeat_sequence_ok; try assumption; lia.
  - cbn [op_wf] in Hw. apply fill_all_ok; [exact H|lia|exact Hw].
Qed.

End Gen.

Lemma run_ok {S} (ops : dest_ops S) R (L : full_laws ops R) os : forall s t,
  R s t -> Forall op_wf os ->
  exists s', run ops s os = Some s' /\ R s' (t ++ ops_text os).
Proof.
  induction os as [|o os IH]; intros s t H Hw; cbn [run ops_text map concat].
  - exists s; rewrite app_nil_r; eauto.
  - inversion Hw as [|? ? Ho Hos]; subst.
    destruct (run_op_ok ops R _ L s t o H Ho) as (s1 & E1 & R1).
    { destruct o; auto. }
    rewrite E1; cbn [obind].
    destruct (IH s1 _ R1 Hos) as (s' & E' & R'). exists s'; split; [exact E'|].
    unfold ops_text in R'. rewrite <- app_assoc in R'. exact R'.
Qed.

(* ---------- cstr ---------- *)
Lemma store_length buf p u : (p + length u <= length buf)%nat -> length (store buf p u) = length buf.
Proof. intros H; unfold store; rewrite !app_length, firstn_length, skipn_length; lia. Qed.
Lemma store_firstn_le buf p u k : (k <= p)%nat -> (p <= length buf)%nat -> firstn k (store buf p u) = firstn k buf.
Proof.
  intros Hk Hp; unfold store. rewrite firstn_app, firstn_length.
  replace (k - Nat.min p (length buf))%nat with 0%nat by lia.
  cbn [firstn]. rewrite app_nil_r, firstn_firstn. f_equal; lia.
Qed.
Lemma store_firstn_end buf p u : (p <= length buf)%nat ->
  firstn (p + length u) (store buf p u) = firstn p buf ++ u.
Proof.
  intros Hp; unfold store. rewrite app_assoc.
  replace (p + length u)%nat with (length (firstn p buf ++ u)) at 1
    by (rewrite app_length, firstn_length; lia).
  rewrite firstn_app, Nat.sub_diag, firstn_all. cbn [firstn]; apply app_nil_r.
Qed.
Lemma store_nth buf p x d : (p < length buf)%nat -> nth p (store buf p [x]) d = x.
Proof.
  intros Hp; unfold store. rewrite app_nth2; rewrite firstn_length; [|lia].
  replace (p - Nat.min p (length buf))%nat with 0%nat by lia. reflexivity.
Qed.

(* k extra units at the end of the user buffer are reserved (1 for the NUL) *)
Definition cstr_R (k n : nat) (s : cstr) (t : list Z) : Prop :=
  length (c_buf s) = n /\ (k <= n)%nat /\
  if c_good s then
    c_region s = true /\ c_end s = (n - k)%nat /\ (c_ptr s <= n - k)%nat /\ firstn (c_ptr s) (c_buf s) = t
  else
    c_region s = false /\ c_end s = 64%nat /\ (c_ptr s <= 64)%nat /\
    exists j, c_it s = Some (true, j) /\ (j <= n - k)%nat /\ is_prefix (firstn j (c_buf s)) t.

Lemma cstr_emit_ok k n s t u : cstr_R k n s t -> (length u <= c_end s - c_ptr s)%nat ->
  exists s', cstr_emit s u = Some s' /\ cstr_R k n s' (t ++ u)
             /\ (c_end s' - c_ptr s' = c_end s - c_ptr s - length u)%nat /\ c_good s' = c_good s.
Proof.
  intros (Hn & Hk & H) Hl; unfold cstr_emit.
  destruct (c_good s) eqn:G.
  - destruct H as (Hr & He & Hp & Ht). rewrite Hr.
    destruct (Nat.leb_spec (c_ptr s + length u) (c_end s)) as [E1|E1]; [|lia].
    destruct (Nat.leb_spec (c_ptr s + length u) (length (c_buf s))) as [E2|E2]; [|lia].
    eexists; split; [reflexivity|]. cbn [c_end c_ptr c_good]. split; [|split; [lia|reflexivity]].
    unfold cstr_R; cbn [c_buf c_good c_region c_end c_ptr].
    repeat split; try lia.
    + rewrite store_length; lia.
    + rewrite store_firstn_end by lia. rewrite Ht; reflexivity.
  - destruct H as (Hr & He & Hp & j & Hj & Hjn & Hpre). rewrite Hr.
    destruct (Nat.leb_spec (c_ptr s + length u) (c_end s)) as [E1|E1]; [|lia].
    unfold garbage_size. destruct (Nat.leb_spec (c_ptr s + length u) 64) as [E2|E2]; [|lia].
    eexists; split; [reflexivity|]. cbn [c_end c_ptr c_good]. split; [|split; [lia|reflexivity]].
    unfold cstr_R; cbn [c_buf c_good c_region c_end c_ptr c_it].
    repeat split; try lia. exists j. repeat split; auto. apply is_prefix_app_r; exact Hpre.
Qed.

Lemma cstr_laws k n : dest_laws cstr_ops (cstr_R k n) (fun s => c_good s = true).
Proof.
  constructor; cbn [cstr_ops d_space d_good d_emit d_recycle d_do_write].
  - intros s t u H Hl; apply cstr_emit_ok; assumption.
  - intros s t (Hn & Hk & H); unfold cstr_recycle, cstr_R, garbage_size.
    destruct (c_good s) eqn:G; cbn [c_buf c_good c_region c_end c_ptr c_it].
    + destruct H as (Hr & He & Hp & Ht). repeat split; try lia.
      exists (c_ptr s). rewrite Hr, Ht. repeat split; [lia|apply is_prefix_refl].
    + destruct H as (Hr & He & Hp & Hx). repeat split; try lia. exact Hx.
  - intros s t u (Hn & Hk & H) G; rewrite G in H. unfold cstr_R; rewrite G.
    destruct H as (Hr & He & Hp & j & Hj & Hjn & Hpre).
    repeat split; try assumption. exists j; repeat split; auto. apply is_prefix_app_r; exact Hpre.
  - intros s t u H G Hl.
    assert (HH := H). destruct HH as (Hn & Hk & H1); rewrite G in H1.
    destruct H1 as (Hr & He & Hp & Ht).
    unfold cstr_do_write. set (sub := (c_end s - c_ptr s)%nat) in *.
    destruct (Nat.ltb_spec (length u) sub) as [E|E]; [lia|].
    destruct (cstr_emit_ok k n s t (firstn sub u) H) as (s1 & E1 & R1 & _ & G1);
      [rewrite firstn_length; lia|].
    rewrite E1; cbn [obind]. eexists; split; [reflexivity|].
    destruct R1 as (Hn1 & _ & R1). rewrite G1, G in R1. destruct R1 as (Hr1 & He1 & Hp1 & Ht1).
    unfold cstr_R, garbage_size; cbn [c_buf c_good c_region c_end c_ptr c_it].
    repeat split; try lia. exists (c_end s). rewrite Hr. repeat split; [lia|].
    assert (Hq : c_ptr s1 = c_end s).
    { unfold cstr_emit in E1. destruct (_ <=? _)%nat in E1; [|discriminate].
      rewrite Hr in E1. destruct (_ <=? _)%nat in E1; [|discriminate].
      injection E1 as <-. cbn [c_ptr]. rewrite firstn_length. lia. }
    rewrite <- Hq, Ht1. exists (skipn sub u). rewrite <- app_assoc, firstn_skipn. reflexivity.
Qed.

(* histories on a cstr / array destination in which write() is not used with more
   units than fit once the destination has become bad *)
Fixpoint no_overflow_when_bad (s : cstr) (os : list op) : Prop :=
  match os with
  | [] => True
  | o :: os' =>
      (match o with OWrite u => c_good s = true \/ (length u <= c_end s - c_ptr s)%nat | _ => True end)
      /\ forall s', run_op cstr_ops s o = Some s' -> no_overflow_when_bad s' os'
  end.

Lemma cstr_run k n os : forall s t, cstr_R k n s t -> Forall op_wf os -> no_overflow_when_bad s os ->
  exists s', run cstr_ops s os = Some s' /\ cstr_R k n s' (t ++ ops_text os).
Proof.
  induction os as [|o os IH]; intros s t H Hw Hno; cbn [run ops_text map concat].
  - exists s; rewrite app_nil_r; eauto.
  - inversion Hw as [|? ? Ho Hos]; subst. destruct Hno as [Hno1 Hno2].
    destruct (run_op_ok cstr_ops _ _ (cstr_laws k n) s t o H Ho) as (s1 & E1 & R1).
    { destruct o; auto. cbn [cstr_ops d_space]. tauto. }
    rewrite E1; cbn [obind].
    destruct (IH s1 _ R1 Hos (Hno2 s1 E1)) as (s' & E' & R'). exists s'; split; [exact E'|].
    unfold ops_text in R'. rewrite <- app_assoc in R'. exact R'.
Qed.

Lemma cstr_init_R buf : (1 <= length buf)%nat -> cstr_R 1 (length buf) (cstr_init buf) [].
Proof. intros H; unfold cstr_R, cstr_init; cbn. repeat split; lia. Qed.
Lemma arr_init_R buf : cstr_R 0 (length buf) (arr_init buf) [].
Proof. unfold cstr_R, arr_init; cbn. repeat split; lia. Qed.

Lemma cstr_finish_ok n s t : (1 <= n)%nat -> cstr_R 1 n s t ->
  exists buf' k tr, cstr_finish s = Some (buf', (true, k), tr) /\ length buf' = n /\ (k < n)%nat /\
    nth k buf' 1 = 0 /\ is_prefix (firstn k buf') t /\ (tr = false -> firstn k buf' = t)
    /\ tr = negb (c_good s).
Proof.
  intros Hn1 (Hn & Hk & H); unfold cstr_finish.
  destruct (c_good s) eqn:G; cbv zeta.
  - destruct H as (Hr & He & Hp & Ht). rewrite Hr.
    destruct (Nat.ltb_spec (c_ptr s) (length (c_buf s))) as [E|E]; [|lia].
    eexists _, (c_ptr s), _; split; [reflexivity|].
    rewrite store_length by (cbn [length]; lia).
    rewrite store_nth by lia. rewrite store_firstn_le by lia. rewrite Ht.
    repeat split; try lia. apply is_prefix_refl.
  - destruct H as (Hr & He & Hp & j & Hj & Hjn & Hpre). rewrite Hj.
    destruct (Nat.ltb_spec j (length (c_buf s))) as [E|E]; [|lia].
    eexists _, j, _; split; [reflexivity|].
    rewrite store_length by (cbn [length]; lia).
    rewrite store_nth by lia. rewrite store_firstn_le by lia.
    repeat split; try lia; try assumption.
Qed.
Lemma arr_finish_ok n s t : cstr_R 0 n s t ->
  exists k tr, arr_finish s = (Some (true, k), tr) /\ (k <= n)%nat /\ length (c_buf s) = n /\
    is_prefix (firstn k (c_buf s)) t /\ (tr = false -> firstn k (c_buf s) = t)
    /\ tr = negb (c_good s).
Proof.
  intros (Hn & Hk & H); unfold arr_finish. destruct (c_good s) eqn:G.
  - destruct H as (Hr & He & Hp & Ht). rewrite Hr. eexists (c_ptr s), _; split; [reflexivity|].
    rewrite Ht. repeat split; try lia. apply is_prefix_refl.
  - destruct H as (Hr & He & Hp & j & Hj & Hjn & Hpre). rewrite Hj. eexists j, _; split; [reflexivity|].
    repeat split; try lia; try assumption; try discriminate.
Qed.

(* texts that fit are never truncated (histories without explicit flush whose
   reservations are exact) *)
Definition op_exact (o : op) : Prop :=
  match o with OReserve n u => length u = n /\ (n <= 64)%nat | OFlush => False
  | OSeqFill _ seq => (1 <= length seq <= 64)%nat | OFillAll n _ => 0 <= n | _ => True end.
Lemma cstr_run_fits k n os : forall s t, cstr_R k n s t -> c_good s = true -> Forall op_exact os ->
  (length t + length (ops_text os) <= n - k)%nat ->
  exists s', run cstr_ops s os = Some s' /\ c_good s' = true /\ cstr_R k n s' (t ++ ops_text os).
Proof.
  induction os as [|o os IH]; intros s t H G Hx Hfit; cbn [run ops_text map concat].
  - exists s; rewrite app_nil_r; eauto.
  - inversion Hx as [|? ? Ho Hos]; subst.
    assert (Hlen : length t = c_ptr s /\ c_end s = (n - k)%nat).
    { destruct H as (Hn & Hk & H); rewrite G in H. destruct H as (Hr & He & Hp & Ht).
      rewrite <- Ht, firstn_length. lia. }
    destruct Hlen as [Hlen Hend].
    unfold ops_text in Hfit; cbn [map concat] in Hfit. rewrite app_length in Hfit.
    fold (ops_text os) in Hfit.
    assert (Hstep : exists s1, run_op cstr_ops s o = Some s1 /\ c_good s1 = true /\ cstr_R k n s1 (t ++ op_text o)).
    { assert (Hemit : forall u, u = op_text o -> exists s1, cstr_emit s u = Some s1 /\ c_good s1 = true
                                    /\ cstr_R k n s1 (t ++ op_text o)).
      { intros u ->. destruct (cstr_emit_ok k n s t (op_text o) H) as (s1 & E1 & R1 & _ & G1);
          [lia|]. exists s1. rewrite G1. auto. }
      destruct o as [c|u|m c|m u| |m seq|m c]; cbn [op_text] in *; cbn [run_op].
      - unfold put; cbn [cstr_ops d_space d_emit]. cbn [length] in Hfit.
        destruct (Nat.eqb_spec (c_end s - c_ptr s) 0); [lia|]. apply Hemit; reflexivity.
      - unfold write; cbn [cstr_ops d_space d_emit].
        destruct (Nat.ltb_spec 0 (length u)) as [Hl|Hl].
        + destruct (Nat.leb_spec (length u) (c_end s - c_ptr s)); [|lia]. apply Hemit; reflexivity.
        + destruct u; [|cbn in Hl; lia]. exists s; rewrite app_nil_r; auto.
      - unfold write_fill; cbn [cstr_ops d_space d_emit]. rewrite repeat_length in Hfit.
        destruct (Z.ltb_spec 0 m).
        + destruct (Z.leb_spec m (Z.of_nat (c_end s - c_ptr s))); [|lia]. apply Hemit; reflexivity.
        + replace (Z.to_nat m) with 0%nat by lia. cbn [repeat]. exists s; rewrite app_nil_r; auto.
      - cbn [op_exact] in Ho. unfold ensure; cbn [cstr_ops d_space d_emit d_recycle].
        destruct (Nat.ltb_spec 64 m); [lia|]. cbv zeta.
        destruct (Nat.ltb_spec (c_end s - c_ptr s) m); [lia|]. cbn [d_space]. destruct (Nat.ltb_spec (c_end s - c_ptr s) m); [lia|]. cbn [obind]. apply Hemit; reflexivity.
      - destruct Ho.
      - cbn [op_exact] in Ho. rewrite concat_repeat_length in Hfit.
        cbn [repeat_sequence]. cbn [cstr_ops d_space d_emit].
        assert (m <= Z.of_nat (c_end s - c_ptr s) / Z.of_nat (length seq)) as Hm
          by (apply Z.div_le_lower_bound; nia).
        destruct (Z.ltb_spec (Z.of_nat (c_end s - c_ptr s) / Z.of_nat (length seq)) m); [lia|].
        destruct (Hemit _ eq_refl) as (s1 & E1 & G1 & R1). rewrite E1; cbn [obind].
        destruct (Z.leb_spec m (Z.of_nat (c_end s - c_ptr s) / Z.of_nat (length seq))); [|lia].
        eauto.
      - cbn [op_exact] in Ho. rewrite repeat_length in Hfit. unfold fill_all. destruct (Z.ltb_spec m 0); [lia|]. cbn [fill_all_loop cstr_ops d_space d_emit].
        destruct (Z.leb_spec m (Z.of_nat (c_end s - c_ptr s))); [|lia]. apply Hemit; reflexivity. }
    destruct Hstep as (s1 & E1 & G1 & R1). rewrite E1; cbn [obind].
    destruct (IH s1 _ R1 G1 Hos) as (s' & E' & G' & R'); [rewrite app_length; lia|].
    exists s'; split; [exact E'|split; [exact G'|]]. rewrite <- app_assoc in R'. exact R'.
Qed.

(* ---------- discarder ---------- *)
Definition disc_R (s : disc) (t : list Z) : Prop := (dc_ptr s <= 64)%nat.
Lemma disc_laws : full_laws disc_ops disc_R.
Proof.
  constructor; cbn [disc_ops d_space d_good d_emit d_recycle d_do_write]; unfold disc_R, garbage_size.
  - intros s t u H Hl. destruct (Nat.leb_spec (dc_ptr s + length u) 64); [|lia].
    eexists; split; [reflexivity|]; cbn [dc_ptr]; repeat split; lia.
  - intros; cbn [dc_ptr]; lia.
  - auto.
  - intros; eexists; split; [reflexivity|]; cbn [dc_ptr]; lia.
Qed.

(* ---------- strings ---------- *)
Definition sapp_R (str0 : list Z) (s : sapp) (t : list Z) : Prop :=
  sa_good s = true /\ (length (sa_buf s) <= 64)%nat /\ sa_str s ++ sa_buf s = str0 ++ t.
Lemma sapp_laws str0 : full_laws sapp_ops (sapp_R str0).
Proof.
  constructor; cbn [sapp_ops d_space d_good d_emit d_recycle d_do_write];
    unfold sapp_R, sapp_emit, sapp_recycle, sapp_do_write, min_buf.
  - intros s t u (G & Hl & Ht) Hu. destruct (Nat.leb_spec (length (sa_buf s) + length u) 64); [|lia].
    eexists; split; [reflexivity|]; cbn [sa_str sa_buf sa_good].
    rewrite app_length, app_assoc, Ht, <- app_assoc. repeat split; auto; lia.
  - intros s t (G & Hl & Ht). rewrite G; cbn [sa_str sa_buf sa_good length].
    rewrite app_nil_r. repeat split; auto; lia.
  - intros s t u (G & _) Gb; congruence.
  - intros s t u (G & Hl & Ht) _ Hu. rewrite G. eexists; split; [reflexivity|].
    cbn [sa_str sa_buf sa_good length]. rewrite app_nil_r, app_assoc, Ht, <- app_assoc. repeat split; lia.
Qed.
Lemma sapp_finish_ok str0 s t : sapp_R str0 s t -> sapp_finish s = str0 ++ t.
Proof. intros (G & _ & Ht); unfold sapp_finish; rewrite G; exact Ht. Qed.

Definition smak_R (s : smak) (t : list Z) : Prop :=
  sm_good s = true /\ (length (sm_buf s) <= 64)%nat /\
  match sm_str s with None => sm_buf s = t | Some x => x ++ sm_buf s = t end.
Lemma smak_laws : full_laws smak_ops smak_R.
Proof.
  constructor; cbn [smak_ops d_space d_good d_emit d_recycle d_do_write];
    unfold smak_R, smak_emit, smak_recycle, smak_do_write, min_buf.
  - intros s t u (G & Hl & Ht) Hu. destruct (Nat.leb_spec (length (sm_buf s) + length u) 64); [|lia].
    eexists; split; [reflexivity|]; cbn [sm_str sm_buf sm_good].
    rewrite app_length. repeat split; auto; try lia.
    destruct (sm_str s); [rewrite app_assoc|]; rewrite Ht; reflexivity.
  - intros s t (G & Hl & Ht). rewrite G; cbn [sm_str sm_buf sm_good length].
    rewrite app_nil_r. repeat split; try lia. destruct (sm_str s); exact Ht.
  - intros s t u (G & _) Gb; congruence.
  - intros s t u (G & Hl & Ht) _ Hu. rewrite G. eexists; split; [reflexivity|].
    cbn [sm_str sm_buf sm_good length]. rewrite app_nil_r. repeat split; try lia.
    destruct (sm_str s); cbn [app]; rewrite Ht; reflexivity.
Qed.
Lemma smak_finish_ok s t : smak_R s t -> smak_finish s = t.
Proof. intros (G & _ & Ht); unfold smak_finish; rewrite G; destruct (sm_str s); exact Ht. Qed.

Definition szmk_R (s : szmk) (t : list Z) : Prop :=
  (sz_ptr s <= sz_end s <= length (sz_str s))%nat /\ firstn (sz_ptr s) (sz_str s) = t.
Lemma szmk_laws0 : dest_laws szmk_ops0 szmk_R (fun _ => False).
Proof.
  constructor; cbn [szmk_ops0 d_space d_good d_emit d_recycle d_do_write];
    unfold szmk_R, szmk_emit, szmk_recycle, min_buf.
  - intros s t u (Hb & Ht) Hu.
    destruct (Nat.leb_spec (sz_ptr s + length u) (sz_end s)); [|lia].
    destruct (Nat.leb_spec (sz_ptr s + length u) (length (sz_str s))); [|lia].
    eexists; split; [reflexivity|]; cbn [sz_ptr sz_end sz_str].
    rewrite store_length by lia. rewrite store_firstn_end by lia. rewrite Ht. repeat split; lia.
  - intros s t (Hb & Ht); cbn [sz_ptr sz_end sz_str]. rewrite app_length, repeat_length.
    repeat split; try lia. rewrite firstn_app. replace (sz_ptr s - length (sz_str s))%nat with 0%nat by lia.
    cbn [firstn]. rewrite app_nil_r; exact Ht.
  - intros; discriminate.
  - intros ? ? ? ? [].
Qed.
Lemma szmk_laws : full_laws szmk_ops szmk_R.
Proof.
  destruct szmk_laws0 as [Le Lr Lb Ld]. constructor.
  - exact Le.
  - exact Lr.
  - exact Lb.
  - intros s t u H _ Hu. cbn [szmk_ops d_do_write].
    apply (base_do_write_ok szmk_ops0 szmk_R _ szmk_laws0); [exact H|lia].
Qed.
Lemma szmk_init_R n : szmk_R (szmk_init n) [].
Proof. unfold szmk_R, szmk_init; cbn [sz_ptr sz_end sz_str firstn]. rewrite repeat_length. split; [lia|reflexivity]. Qed.

(* ---------- files ---------- *)
Definition fwr_R (s : fwr) (t : list Z) : Prop :=
  (64 <= fw_cap s)%nat /\ (length (fw_buf s) <= fw_cap s)%nat /\ fw_count s = zlen (fw_file s) /\
  if fw_good s then fw_file s ++ fw_buf s = t
  else exists x r, t = fw_file s ++ x :: r.

Lemma dev_write_spec file o u : exists p, fst (fst (dev_write file o u)) = file ++ p /\ is_prefix p u /\
   snd (dev_write file o u) = length p.
Proof.
  destruct o as [|k o]; cbn [dev_write fst snd].
  - exists u; repeat split; apply is_prefix_refl.
  - exists (firstn k u); repeat split.
    + exists (skipn k u); symmetry; apply firstn_skipn.
    + rewrite firstn_length; reflexivity.
Qed.
Lemma prefix_full {A} (p u : list A) : is_prefix p u -> length p = length u -> p = u.
Proof. intros [r ->] H. rewrite app_length in H. destruct r; [symmetry; apply app_nil_r|cbn in H; lia]. Qed.
Lemma prefix_strict {A} (p u : list A) : is_prefix p u -> length p <> length u -> exists x r, u = p ++ x :: r.
Proof. intros [r ->] H. destruct r as [|x r]; [rewrite app_nil_r in H; congruence|eauto]. Qed.

Lemma fwr_recycle_ok s t : fwr_R s t -> fwr_R (fwr_recycle s) t /\ (64 <= fw_cap (fwr_recycle s) - length (fw_buf (fwr_recycle s)))%nat.
Proof.
  intros (Hc & Hl & Hn & H); unfold fwr_recycle.
  destruct (fw_good s) eqn:G.
  - destruct (dev_write_spec (fw_file s) (fw_oracle s) (fw_buf s)) as (p & Hp1 & Hp2 & Hp3).
    destruct (dev_write (fw_file s) (fw_oracle s) (fw_buf s)) as [[file o] inc]; cbn [fst snd] in *.
    unfold fwr_R; cbn [fw_cap fw_buf fw_count fw_file fw_good length].
    subst file inc. repeat split; try lia.
    + rewrite zlen_app. unfold zlen in *; lia.
    + destruct (Nat.eqb_spec (length p) (length (fw_buf s))) as [E|E].
      * rewrite (prefix_full _ _ Hp2 E), app_nil_r; exact H.
      * destruct (prefix_strict _ _ Hp2 E) as (x & r & Hx). exists x, r.
        rewrite <- app_assoc, <- Hx. symmetry; exact H.
  - unfold fwr_R; cbn [fw_cap fw_buf fw_count fw_file fw_good length]. repeat split; try lia. exact H.
Qed.
Lemma fwr_emit_ok s t u : fwr_R s t -> (length u <= fw_cap s - length (fw_buf s))%nat ->
  exists s', fwr_emit s u = Some s' /\ fwr_R s' (t ++ u) /\
     (fw_cap s' - length (fw_buf s') = fw_cap s - length (fw_buf s) - length u)%nat /\ fw_good s' = fw_good s.
Proof.
  intros (Hc & Hl & Hn & H) Hu; unfold fwr_emit.
  destruct (Nat.leb_spec (length (fw_buf s) + length u) (fw_cap s)); [|lia].
  eexists; split; [reflexivity|]; unfold fwr_R; cbn [fw_cap fw_buf fw_count fw_file fw_good].
  rewrite app_length. repeat split; auto; try lia.
  destruct (fw_good s); [rewrite app_assoc, H; reflexivity|].
  destruct H as (x & r & ->). exists x, (r ++ u). rewrite <- app_assoc; reflexivity.
Qed.
Lemma fwr_bad s t u : fwr_R s t -> fw_good s = false -> fwr_R s (t ++ u).
Proof.
  intros (Hc & Hl & Hn & H) G; unfold fwr_R; rewrite G in *. repeat split; auto.
  destruct H as (x & r & ->). exists x, (r ++ u). rewrite <- app_assoc; reflexivity.
Qed.
Lemma cf_laws : full_laws cf_ops fwr_R.
Proof.
  constructor; cbn [cf_ops d_space d_good d_emit d_recycle d_do_write].
  - intros; apply fwr_emit_ok; assumption.
  - intros; apply fwr_recycle_ok; assumption.
  - intros; apply fwr_bad; assumption.
  - intros s t u HR _ Hu. assert (HR' := HR). destruct HR' as (Hc & Hl & Hn & H). unfold cf_do_write.
    destruct (fw_good s) eqn:G.
    + destruct (dev_write_spec (fw_file s) (fw_oracle s) (fw_buf s)) as (p & Hp1 & Hp2 & Hp3).
      destruct (dev_write (fw_file s) (fw_oracle s) (fw_buf s)) as [[file o] inc]; cbn [fst snd] in *.
      subst file inc.
      destruct (Nat.eqb_spec (length p) (length (fw_buf s))) as [E|E].
      * assert (p = fw_buf s) by (apply prefix_full; assumption). subst p.
        destruct (dev_write_spec (fw_file s ++ fw_buf s) o u) as (q & Hq1 & Hq2 & Hq3).
        destruct (dev_write (fw_file s ++ fw_buf s) o u) as [[file2 o2] inc2]; cbn [fst snd] in *.
        subst file2 inc2. eexists; split; [reflexivity|].
        unfold fwr_R; cbn [fw_cap fw_buf fw_count fw_file fw_good length]. repeat split; try lia.
        -- rewrite !zlen_app. unfold zlen in *; lia.
        -- destruct (Nat.eqb_spec (length (fw_buf s) + length q) (length (fw_buf s) + length u)) as [E2|E2].
           ++ rewrite (prefix_full q u Hq2) by lia. rewrite app_nil_r, H; reflexivity.
           ++ destruct (prefix_strict q u Hq2) as (x & r & Hx); [lia|]. exists x, r.
              rewrite Hx, app_assoc, H. rewrite <- app_assoc; reflexivity.
      * eexists; split; [reflexivity|].
        unfold fwr_R; cbn [fw_cap fw_buf fw_count fw_file fw_good length]. repeat split; try lia.
        -- rewrite !zlen_app. unfold zlen in *; lia.
        -- assert (length p <= length (fw_buf s))%nat by (destruct Hp2 as [r ->]; rewrite app_length; lia).
           destruct (Nat.eqb_spec (length p) (length (fw_buf s) + length u)) as [E2|E2]; [lia|].
           destruct (prefix_strict p _ Hp2 E) as (x & r & Hx). exists x, (r ++ u).
           rewrite <- H, Hx. rewrite <- !app_assoc. reflexivity.
    + eexists; split; [reflexivity|]. destruct H as (x & r & ->).
      unfold fwr_R; cbn [fw_cap fw_buf fw_count fw_file fw_good length]. repeat split; try lia.
      exists x, (r ++ u). rewrite <- app_assoc; reflexivity.
Qed.
(* the streambuf: no gap as long as do_write does not have a second acceptance after a
   short first one *)
Definition sb_no_gap (s : fwr) : Prop :=
  fw_good s = false \/
  match fw_oracle s with
  | [] => True
  | k :: o => (length (fw_buf s) <= k)%nat \/ match o with k2 :: _ => k2 = 0%nat | [] => False end
  end.
Lemma sb_laws : dest_laws sb_ops fwr_R sb_no_gap.
Proof.
  constructor; cbn [sb_ops d_space d_good d_emit d_recycle d_do_write].
  - intros; apply fwr_emit_ok; assumption.
  - intros; apply fwr_recycle_ok; assumption.
  - intros; apply fwr_bad; assumption.
  - intros s t u HR Hpre Hu. assert (HR' := HR). destruct HR' as (Hc & Hl & Hn & H).
    unfold sb_no_gap in Hpre. destruct (fw_good s) eqn:G.
    + unfold sb_do_write; rewrite G. destruct Hpre as [Hpre|Hpre]; [discriminate|].
      destruct (Nat.leb_spec (match fw_oracle s with [] => 0%nat | k :: _ => length (fw_buf s) - k end) 0) as [Hf|Hf].
      * assert (Hfull : exists o, dev_write (fw_file s) (fw_oracle s) (fw_buf s)
                         = (fw_file s ++ fw_buf s, o, length (fw_buf s))).
        { destruct (fw_oracle s) as [|k o]; [exists []; reflexivity|].
          exists o. cbn [dev_write]. rewrite firstn_all2 by lia. rewrite Nat.min_r by lia. reflexivity. }
        destruct Hfull as [o Ho]; rewrite Ho.
        destruct (dev_write_spec (fw_file s ++ fw_buf s) o u) as (q & Hq1 & Hq2 & Hq3).
        destruct (dev_write (fw_file s ++ fw_buf s) o u) as [[file2 o2] inc2]; cbn [fst snd] in *.
        subst file2 inc2. eexists; split; [reflexivity|].
        unfold fwr_R; cbn [fw_cap fw_buf fw_count fw_file fw_good length]. repeat split; try lia.
        -- rewrite !zlen_app. unfold zlen in *; lia.
        -- destruct (Nat.eqb_spec (length (fw_buf s) + length q) (length (fw_buf s) + length u)) as [E2|E2].
           ++ rewrite (prefix_full q u Hq2) by lia. rewrite app_nil_r, H; reflexivity.
           ++ destruct (prefix_strict q u Hq2) as (x & r & Hx); [lia|]. exists x, r.
              rewrite Hx, app_assoc, H. rewrite <- app_assoc; reflexivity.
      * destruct (fw_oracle s) as [|k o]; [lia|]. destruct Hpre as [Hpre|Hpre]; [lia|].
        destruct o as [|k2 o]; [tauto|]. subst k2. cbn [dev_write firstn Nat.min].
        eexists; split; [reflexivity|]. rewrite app_nil_r, Nat.add_0_r.
        unfold fwr_R; cbn [fw_cap fw_buf fw_count fw_file fw_good length]. repeat split; try lia.
        -- rewrite zlen_app. unfold zlen in *; rewrite firstn_length; lia.
        -- destruct (Nat.eqb_spec (Nat.min k (length (fw_buf s))) (length (fw_buf s) + length u)) as [E2|E2]; [lia|].
           destruct (prefix_strict (firstn k (fw_buf s)) (fw_buf s)) as (x & r & Hx).
           { exists (skipn k (fw_buf s)); symmetry; apply firstn_skipn. }
           { rewrite firstn_length; lia. }
           exists x, (r ++ u). rewrite <- H. rewrite Hx at 1. rewrite <- !app_assoc. reflexivity.
    + unfold sb_do_write; rewrite G. eexists; split; [reflexivity|]. destruct H as (x & r & ->).
      unfold fwr_R; cbn [fw_cap fw_buf fw_count fw_file fw_good length]. repeat split; try lia.
      exists x, (r ++ u). rewrite <- app_assoc; reflexivity.
Qed.
(* histories on a streambuf writer in which no write() beyond the free space meets a device
   that takes only part of the buffered text and then accepts more *)
Fixpoint no_gap (s : fwr) (os : list op) : Prop :=
  match os with
  | [] => True
  | o :: os' =>
      (match o with OWrite u => (length u <= fw_cap s - length (fw_buf s))%nat \/ sb_no_gap s | _ => True end)
      /\ forall s', run_op sb_ops s o = Some s' -> no_gap s' os'
  end.
Lemma sb_run os : forall s t, fwr_R s t -> Forall op_wf os -> no_gap s os ->
  exists s', run sb_ops s os = Some s' /\ fwr_R s' (t ++ ops_text os).
Proof.
  induction os as [|o os IH]; intros s t H Hw Hno; cbn [run ops_text map concat].
  - exists s; rewrite app_nil_r; eauto.
  - inversion Hw as [|? ? Ho Hos]; subst. destruct Hno as [Hno1 Hno2].
    destruct (run_op_ok sb_ops _ _ sb_laws s t o H Ho) as (s1 & E1 & R1).
    { destruct o; auto. }
    rewrite E1; cbn [obind].
    destruct (IH s1 _ R1 Hos (Hno2 s1 E1)) as (s' & E' & R'). exists s'; split; [exact E'|].
    unfold ops_text in R'. rewrite <- app_assoc in R'. exact R'.
Qed.
(* whatever the device does: the text reaches it with at most one hole *)
Definition holed (file t : list Z) : Prop :=
  exists a b c d, file = a ++ c /\ t = a ++ b ++ c ++ d.
Definition sbuf_R (s : fwr) (t : list Z) : Prop :=
  (64 <= fw_cap s)%nat /\ (length (fw_buf s) <= fw_cap s)%nat /\ fw_count s = zlen (fw_file s) /\
  if fw_good s then fw_file s ++ fw_buf s = t
  else (length (fw_file s) < length t)%nat /\ holed (fw_file s) t.
Lemma holed_app f t u : holed f t -> holed f (t ++ u).
Proof.
  intros (a & b & c & d & -> & ->). exists a, b, c, (d ++ u). split; [reflexivity|].
  rewrite <- !app_assoc; reflexivity.
Qed.
Lemma holed_prefix f t : is_prefix f t -> holed f t.
Proof. intros [r ->]. exists f, [], [], r. rewrite app_nil_r; auto. Qed.
Lemma sbuf_weaken s t : fwr_R s t -> sbuf_R s t.
Proof.
  intros (Hc & Hl & Hn & H). unfold sbuf_R. repeat split; auto. destruct (fw_good s); [exact H|].
  destruct H as (x & r & ->). split.
  - rewrite app_length; cbn [length]; lia.
  - apply holed_prefix; eexists; reflexivity.
Qed.
Lemma sbuf_laws : full_laws sb_ops sbuf_R.
Proof.
  constructor; cbn [sb_ops d_space d_good d_emit d_recycle d_do_write].
  - intros s t u (Hc & Hl & Hn & H) Hu; unfold fwr_emit.
    destruct (Nat.leb_spec (length (fw_buf s) + length u) (fw_cap s)); [|lia].
    eexists; split; [reflexivity|]; unfold sbuf_R; cbn [fw_cap fw_buf fw_count fw_file fw_good].
    rewrite app_length. repeat split; auto; try lia.
    destruct (fw_good s); [rewrite app_assoc, H; reflexivity|]. destruct H as [H1 H2].
    split; [rewrite app_length; lia|apply holed_app; exact H2].
  - intros s t (Hc & Hl & Hn & H). destruct (fw_good s) eqn:G.
    + assert (HR : fwr_R s t) by (unfold fwr_R; rewrite G; auto).
      destruct (fwr_recycle_ok s t HR) as [HR1 HR2]. split; [apply sbuf_weaken; exact HR1|exact HR2].
    + unfold fwr_recycle; rewrite G. unfold sbuf_R; cbn [fw_cap fw_buf fw_count fw_file fw_good length].
      repeat split; auto; try lia; apply H.
  - intros s t u (Hc & Hl & Hn & H) G. unfold sbuf_R; rewrite G in *. destruct H as [H1 H2].
    repeat split; auto; [rewrite app_length; lia|apply holed_app; exact H2].
  - intros s t u (Hc & Hl & Hn & H) _ Hu. unfold sb_do_write. eexists; split; [reflexivity|].
    destruct (fw_good s) eqn:G.
    + destruct (dev_write_spec (fw_file s) (fw_oracle s) (fw_buf s)) as (p & Hp1 & Hp2 & Hp3).
      destruct (dev_write (fw_file s) (fw_oracle s) (fw_buf s)) as [[file o] inc]; cbn [fst snd] in *.
      subst file inc.
      destruct (dev_write_spec (fw_file s ++ p) o u) as (q & Hq1 & Hq2 & Hq3).
      destruct (dev_write (fw_file s ++ p) o u) as [[file2 o2] inc2]; cbn [fst snd] in *.
      subst file2 inc2. unfold sbuf_R; cbn [fw_cap fw_buf fw_count fw_file fw_good length].
      assert (Lp : (length p <= length (fw_buf s))%nat) by (destruct Hp2 as [r ->]; rewrite app_length; lia).
      assert (Lq : (length q <= length u)%nat) by (destruct Hq2 as [r ->]; rewrite app_length; lia).
      repeat split; try lia.
      * rewrite !zlen_app. unfold zlen in *; lia.
      * destruct (Nat.eqb_spec (length p + length q) (length (fw_buf s) + length u)) as [E|E].
        -- rewrite (prefix_full p _ Hp2), (prefix_full q _ Hq2), app_nil_r, H by lia. reflexivity.
        -- split; [rewrite <- H, !app_length; lia|].
           destruct Hp2 as [r1 E1]. destruct Hq2 as [r2 E2].
           exists (fw_file s ++ p), r1, q, r2. split; [reflexivity|].
           rewrite <- H, E1, E2. rewrite <- !app_assoc; reflexivity.
    + unfold sbuf_R; cbn [fw_cap fw_buf fw_count fw_file fw_good length]. destruct H as [H1 H2].
      repeat split; try lia; [rewrite app_length; lia|apply holed_app; exact H2].
Qed.
Lemma fwr_init_R cap o : (64 <= cap)%nat -> fwr_R (fwr_init cap o) [].
Proof. intros H; unfold fwr_R, fwr_init; cbn. repeat split; lia. Qed.
Lemma sbuf_finish_ok s t : sbuf_R s t ->
  exists file, fwr_finish s = (file, zlen file, snd (fwr_finish s)) /\ holed file t /\
     (snd (fwr_finish s) = true <-> file = t).
Proof.
  intros (Hc & Hl & Hn & H); unfold fwr_finish. destruct (fw_good s) eqn:G.
  - destruct (dev_write_spec (fw_file s) (fw_oracle s) (fw_buf s)) as (p & Hp1 & Hp2 & Hp3).
    destruct (dev_write (fw_file s) (fw_oracle s) (fw_buf s)) as [[file o] inc]; cbn [fst snd] in *.
    subst file inc. exists (fw_file s ++ p). rewrite zlen_app, Hn. split; [reflexivity|]. split.
    + apply holed_prefix. destruct Hp2 as [r Hr]. exists r. rewrite <- H, Hr, app_assoc. reflexivity.
    + destruct (Nat.eqb_spec (length p) (length (fw_buf s))) as [E|E].
      * rewrite (prefix_full _ _ Hp2 E). split; auto.
      * split; [discriminate|]. intros Heq. exfalso; apply E. rewrite <- H in Heq.
        apply app_inv_head in Heq. rewrite Heq; reflexivity.
  - exists (fw_file s). rewrite Hn; cbn [snd]. split; [reflexivity|]. destruct H as [H1 H2].
    split; [exact H2|]. split; [discriminate|]. intros Heq; rewrite Heq in H1; lia.
Qed.
Lemma fwr_finish_ok s t : fwr_R s t ->
  exists file, fwr_finish s = (file, zlen file, snd (fwr_finish s)) /\ is_prefix file t /\
     (snd (fwr_finish s) = true <-> file = t).
Proof.
  intros (Hc & Hl & Hn & H); unfold fwr_finish. destruct (fw_good s) eqn:G.
  - destruct (dev_write_spec (fw_file s) (fw_oracle s) (fw_buf s)) as (p & Hp1 & Hp2 & Hp3).
    destruct (dev_write (fw_file s) (fw_oracle s) (fw_buf s)) as [[file o] inc]; cbn [fst snd] in *.
    subst file inc. exists (fw_file s ++ p). rewrite zlen_app, Hn. split; [reflexivity|]. split.
    + destruct Hp2 as [r Hr]. exists r. rewrite <- H, Hr, app_assoc. reflexivity.
    + destruct (Nat.eqb_spec (length p) (length (fw_buf s))) as [E|E].
      * rewrite (prefix_full _ _ Hp2 E). split; auto.
      * split; [discriminate|]. intros Heq. exfalso; apply E. rewrite <- H in Heq.
        apply app_inv_head in Heq. rewrite Heq; reflexivity.
  - exists (fw_file s). rewrite Hn; cbn [snd]. split; [reflexivity|].
    destruct H as (x & r & ->). split; [exists (x :: r); reflexivity|].
    split; [discriminate|]. intros Heq. exfalso.
    apply (f_equal (@length Z)) in Heq. rewrite app_length in Heq; cbn in Heq; lia.
Qed.
