(* Each exception thrown by the string or stream reaches the user, once. *)
From Verif Require Import Base DestModel DestProofs LifeModel.

Section Keep.
Context {S : Type} (ops : dest_ops S) (I : S -> Prop).
Hypothesis Ke : forall s u s', I s -> d_emit ops s u = Some s' -> I s'.
Hypothesis Kr : forall s, I s -> I (d_recycle ops s).
Lemma keep_flush m s s' : I s -> flush_min ops m s = Some s' -> I s'.
Proof using Kr. clear Ke. intros Hs H. unfold flush_min in H. cbv zeta in H. destruct (_ <? m)%nat; [discriminate|]. injection H as <-. auto. Qed.
Lemma keep_base : forall fuel s u s', I s -> base_do_write ops fuel s u = Some s' -> I s'.
Proof using Ke Kr.
  induction fuel as [|fuel IH]; intros s u s' Hs H; [discriminate|]. cbn [base_do_write] in H.
  destruct (d_emit ops s _) as [s1|] eqn:E; [|discriminate]. cbn [obind] in H. assert (I s1) by eauto.
  destruct (skipn _ u); [injection H as <-; assumption|]. destruct (flush_min ops 1 s1) as [s2|] eqn:E2; [|discriminate]. cbn [obind] in H. assert (I s2) by (eapply keep_flush; eauto). destruct (d_good ops s2); [|injection H as <-; auto]. eapply IH; [|exact H]. auto.
Qed.
Hypothesis Kw : forall s u s', I s -> d_do_write ops s u = Some s' -> I s'.
Lemma keep_fill : forall fuel s n c s', I s -> fill_loop ops fuel s n c = Some s' -> I s'.
Proof using Ke Kr.
  clear Kw. induction fuel as [|fuel IH]; intros s n c s' Hs H; cbn [fill_loop] in H; (destruct (d_good ops s); [|injection H as <-; assumption]); [discriminate|].
  destruct (n <=? d_space ops s)%nat; [eauto|]. destruct (d_emit ops s _) as [s1|] eqn:E; [|discriminate]. cbn [obind] in H. assert (I s1) by eauto.
  destruct (flush_min ops 1 s1) as [s2|] eqn:E2; [|discriminate]. cbn [obind] in H. eapply IH; [|exact H]. eapply keep_flush; eauto.
Qed.
Lemma keep_seq : forall fuel s n q s', I s -> repeat_sequence ops fuel s n q = Some s' -> I s'.
Proof using Ke Kr.
  clear Kw. induction fuel as [|fuel IH]; intros s n q s' Hs H; [discriminate|]. cbn [repeat_sequence] in H.
  destruct (d_emit ops s _) as [s1|] eqn:E; [|discriminate]. cbn [obind] in H. destruct (n <=? _); [injection H as <-; eauto|].
  assert (I s1) by eauto. destruct (flush_min ops 8 s1) as [s2|] eqn:E2; [|discriminate]. cbn [obind] in H. assert (I s2) by (eapply keep_flush; eauto).
  destruct (d_good ops s2); cbn [negb] in H; [eapply IH; [|exact H]; eauto|injection H as <-; eauto].
Qed.
Lemma keep_fill_all m : forall fuel s n c s', I s -> fill_all_loop ops m fuel s n c = Some s' -> I s'.
Proof using Ke Kr.
  clear Kw. induction fuel as [|fuel IH]; intros s n c s' Hs H; [discriminate|]. cbn [fill_all_loop] in H. destruct (n <=? _); [eauto|].
  destruct (d_emit ops s _) as [s1|] eqn:E; [|discriminate]. cbn [obind] in H. assert (I s1) by eauto.
  destruct (flush_min ops m s1) as [s2|] eqn:E2; [|discriminate]. cbn [obind] in H. eapply IH; [|exact H]. eapply keep_flush; eauto.
Qed.
Lemma keep_op s o s' : I s -> run_op ops s o = Some s' -> I s'.
Proof using Ke Kr Kw.
  intros Hs H. destruct o; cbn [run_op] in H.
  - unfold put in H. destruct (_ =? 0)%nat; [|eauto]. destruct (flush_min ops 1 s) as [s1|] eqn:E; [|discriminate]. cbn [obind] in H. eapply Ke; [|exact H]. eapply keep_flush; eauto.
  - unfold write in H. destruct (0 <? _)%nat; [|injection H as <-; assumption]. destruct (_ <=? _)%nat; eauto.
  - unfold write_fill in H. destruct (0 <? n); [|injection H as <-; assumption]. destruct (n <=? _); [eauto|]. unfold write_fill_continuation in H.
    destruct (d_emit ops s _) as [s1|] eqn:E; [|discriminate]. cbn [obind] in H. assert (I s1) by eauto.
    destruct (flush_min ops 1 s1) as [s2|] eqn:E2; [|discriminate]. cbn [obind] in H. eapply keep_fill; [|exact H]. eapply keep_flush; eauto.
  - unfold ensure in H. destruct (64 <? n)%nat; [discriminate|]. cbv zeta in H.
    assert (HI : I (if (d_space ops s <? n)%nat then d_recycle ops s else s)) by (destruct (d_space ops s <? n)%nat; [apply Kr|]; assumption).
    set (s1 := if (d_space ops s <? n)%nat then d_recycle ops s else s) in *. clearbody s1.
    destruct (d_space ops s1 <? n)%nat; [discriminate|]. cbn [obind] in H. eauto.
  - eapply keep_flush; eauto.
  - eapply keep_seq; eauto.
  - unfold fill_all in H. destruct (n <? 0); [discriminate|]. eapply keep_fill_all; eauto.
Qed.
End Keep.

(* a count over the calls still to come, lowered by each exception *)
Definition bit (b : bool) : nat := if b then 1%nat else 0%nat.
Record counts {S} (x : xops S) (c : S -> nat) : Prop := {
  count_emit : forall s u s', x_emit x s u = Some s' -> c s' = c s;
  count_recycle : forall s, (c (fst (x_recycle x s)) + bit (snd (x_recycle x s)) = c s)%nat;
  count_write : forall s u r, x_do_write x s u = Some r -> (c (fst r) + bit (snd r) = c s)%nat }.
Definition left_in {S} (c : S -> nat) (r : running S) : nat := (c (caught r) + bit (threw r))%nat.
Fixpoint trues (l : list bool) : nat := match l with [] => 0%nat | b :: l => (bit b + trues l)%nat end.
Section Counts.
Context {S : Type} (x : xops S) (c : S -> nat) (K : counts x c).
Lemma exn_emit r u r' : d_emit (exn_ops x) r u = Some r' -> left_in c r' = left_in c r.
Proof using K.
  destruct r as [s|s n]; cbn [exn_ops d_emit].
  - destruct (x_emit x s u) as [s'|] eqn:E; [|discriminate]. intros H. injection H as <-. unfold left_in. cbn [caught threw]. rewrite (count_emit _ _ K _ _ _ E). reflexivity.
  - destruct (_ <=? _)%nat; [|discriminate]. intros H. injection H as <-. reflexivity.
Qed.
Lemma after_left p : left_in c (after p) = (c (fst p) + bit (snd p))%nat.
Proof. unfold after, left_in. destruct (snd p); reflexivity. Qed.
Lemma exn_recycle r : left_in c (d_recycle (exn_ops x) r) = left_in c r.
Proof using K.
  destruct r as [s|s n]; cbn [exn_ops d_recycle]; [|reflexivity]. rewrite after_left, (count_recycle _ _ K). unfold left_in. cbn [caught threw bit]. lia.
Qed.
Lemma exn_write r u r' : d_do_write (exn_ops x) r u = Some r' -> left_in c r' = left_in c r.
Proof using K.
  destruct r as [s|s n]; cbn [exn_ops d_do_write].
  - destruct (x_do_write x s u) as [p|] eqn:E; [|discriminate]. intros H. injection H as <-. rewrite after_left, (count_write _ _ K _ _ _ E). unfold left_in. cbn [caught threw bit]. lia.
  - intros H. injection H as <-. reflexivity.
Qed.
Lemma exn_op s o r : run_op (exn_ops x) (Going s) o = Some r -> (c (caught r) + bit (threw r) = c s)%nat.
Proof using K.
  intros H. assert (Q : left_in c r = left_in c (Going s)).
  { refine (keep_op (exn_ops x) (fun r => left_in c r = left_in c (Going s)) _ _ _ (Going s) o r eq_refl H).
    - intros r1 u r2 H1 E. rewrite (exn_emit _ _ _ E). exact H1.
    - intros r1 H1. rewrite exn_recycle. exact H1.
    - intros r1 u r2 H1 E. rewrite (exn_write _ _ _ E). exact H1. }
  unfold left_in in Q. cbn [caught threw bit] in Q. lia.
Qed.
Lemma exn_run : forall os s s' l, run_catching x s os = Some (s', l) -> (c s' + trues l = c s)%nat.
Proof using K.
  induction os as [|o os IH]; intros s s' l H; cbn [run_catching] in H; [injection H as <- <-; cbn; lia|].
  destruct (run_op (exn_ops x) (Going s) o) as [r|] eqn:E; [|discriminate]. cbn [obind] in H.
  destruct (run_catching x (caught r) os) as [[s2 l2]|] eqn:E2; [|discriminate]. cbn [obind fst snd] in H. injection H as <- <-.
  apply exn_op in E. apply IH in E2. cbn [trues]. lia.
Qed.
End Counts.

Lemma try_append_count o str u : (trues (snd (fst (try_append o str u))) + bit (snd (try_append o str u)) = trues o)%nat.
Proof. destruct o as [|[] o]; cbn; lia. Qed.
Ltac ta o str u := let H := fresh "Ht" in pose proof (try_append_count o str u) as H; destruct (try_append o str u) as [[? ?] ?]; cbn [fst snd] in H.
Lemma ax_counts : counts ax_ops (fun s => trues (ax_o s)).
Proof.
  split; cbn [ax_ops x_emit x_recycle x_do_write].
  - intros s u s'. destruct (sapp_emit (ax_s s) u); [|discriminate]. intros H. injection H as <-. reflexivity.
  - intros s. unfold ax_recycle. destruct (sa_good (ax_s s)); [|cbn; lia]. ta (ax_o s) (sa_str (ax_s s)) (sa_buf (ax_s s)). cbn [fst snd ax_o]. exact Ht.
  - intros s u r H. injection H as <-. destruct (sa_good (ax_s s)); [|cbn; lia]. ta (ax_o s) (sa_str (ax_s s)) (sa_buf (ax_s s)).
    destruct b; [exact Ht|]. ta l0 l u. cbn [fst snd ax_o bit] in *. lia.
Qed.
Lemma mx_counts : counts mx_ops (fun s => trues (mx_o s)).
Proof.
  split; cbn [mx_ops x_emit x_recycle x_do_write].
  - intros s u s'. destruct (smak_emit (mx_s s) u); [|discriminate]. intros H. injection H as <-. reflexivity.
  - intros s. unfold mx_recycle. destruct (sm_good (mx_s s)); [|cbn; lia].
    destruct (sm_str (mx_s s)) as [x|]; [ta (mx_o s) x (sm_buf (mx_s s))|ta (mx_o s) (@nil Z) (sm_buf (mx_s s))]; cbn [fst snd mx_o]; exact Ht.
  - intros s u r H. injection H as <-. destruct (sm_good (mx_s s)); [|cbn; lia]. destruct (sm_str (mx_s s)) as [x|].
    + ta (mx_o s) x (sm_buf (mx_s s)). destruct b; [cbn [fst snd mx_o] in *; lia|]. ta l0 l u. destruct b; cbn [fst snd mx_o bit] in *; lia.
    + ta (mx_o s) (@nil Z) (@nil Z). destruct b; [cbn [fst snd mx_o] in *; lia|]. ta l0 l (sm_buf (mx_s s)). destruct b; [cbn [fst snd mx_o bit] in *; lia|].
      ta l2 l1 u. destruct b; cbn [fst snd mx_o bit] in *; lia.
Qed.
Lemma zx0_emit s u s' : x_emit zx_ops0 s u = Some s' -> trues (zx_o s') = trues (zx_o s).
Proof. cbn [zx_ops0 x_emit]. destruct (szmk_emit (zx_s s) u); [|discriminate]. intros H. injection H as <-. reflexivity. Qed.
Lemma zx0_recycle s : (trues (zx_o (fst (zx_recycle s))) + bit (snd (zx_recycle s)) = trues (zx_o s))%nat.
Proof. unfold zx_recycle. destruct (zx_o s) as [|[] o]; cbn; lia. Qed.
Lemma zx0_counts : counts zx_ops0 (fun s => trues (zx_o s)).
Proof. split; [exact zx0_emit|exact zx0_recycle|]. discriminate. Qed.
Lemma zx_counts : counts zx_ops (fun s => trues (zx_o s)).
Proof.
  split; [exact zx0_emit|exact zx0_recycle|].
  intros s u r H. cbn [zx_ops x_do_write] in H. destruct (base_do_write _ _ _ u) as [r0|] eqn:E; [|discriminate]. injection H as <-. cbn [fst snd].
  assert (Q : left_in (fun s => trues (zx_o s)) r0 = left_in (fun s => trues (zx_o s)) (Going s)).
  { refine (keep_base (exn_ops zx_ops0) (fun r => left_in (fun s => trues (zx_o s)) r = left_in (fun s => trues (zx_o s)) (Going s)) _ _ _ _ _ _ eq_refl E).
    - intros r1 v r2 H1 E1. rewrite (exn_emit _ _ zx0_counts _ _ _ E1). exact H1.
    - intros r1 H1. rewrite (exn_recycle _ _ zx0_counts). exact H1. }
  unfold left_in in Q. cbn [caught threw bit] in Q. lia.
Qed.
Lemma try_sputn_count o file u : (trues (map snd (snd (fst (fst (try_sputn o file u))))) + bit (snd (try_sputn o file u)) = trues (map snd o))%nat.
Proof. destruct o as [|[k t] o]; cbn; [reflexivity|lia]. Qed.
Ltac tsp o f u := let H := fresh "Ht" in pose proof (try_sputn_count o f u) as H; destruct (try_sputn o f u) as [[[? ?] ?] ?]; cbn [fst snd] in H.
Lemma bx_counts : counts bx_ops (fun s => trues (map snd (bx_o s))).
Proof.
  split; cbn [bx_ops x_emit x_recycle x_do_write].
  - intros s u s'. destruct (fwr_emit (bx_s s) u); [|discriminate]. intros H. injection H as <-. reflexivity.
  - intros s. unfold bx_recycle. destruct (fw_good (bx_s s)); [|cbn; lia]. tsp (bx_o s) (fw_file (bx_s s)) (fw_buf (bx_s s)).
    destruct b; cbn [fst snd bx_set bx_o bit] in *; lia.
  - intros s u r H. injection H as <-. destruct (fw_good (bx_s s)); [|cbn; lia]. tsp (bx_o s) (fw_file (bx_s s)) (fw_buf (bx_s s)).
    destruct b; [cbn [fst snd bx_set bx_o bit] in *; lia|]. tsp l0 l u. destruct b; cbn [fst snd bx_set bx_o bit] in *; lia.
Qed.
