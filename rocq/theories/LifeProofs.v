(* Proofs about LifeModel *)
From Verif Require Import Base DestModel DestProofs LifeModel.

(* [sub] is obtained from [text] by deleting units *)
Inductive subsequence : list Z -> list Z -> Prop :=
| ss_nil : subsequence [] []
| ss_keep : forall c a b, subsequence a b -> subsequence (c :: a) (c :: b)
| ss_drop : forall c a b, subsequence a b -> subsequence a (c :: b).
Lemma ss_refl a : subsequence a a.
Proof. induction a; constructor; assumption. Qed.
Lemma ss_none a : subsequence [] a.
Proof. induction a; constructor; assumption. Qed.
Lemma ss_app a b c d : subsequence a b -> subsequence c d -> subsequence (a ++ c) (b ++ d).
Proof. induction 1; cbn [app]; intros; [assumption|constructor; auto|constructor; auto]. Qed.
Lemma ss_more a b c : subsequence a b -> subsequence a (b ++ c).
Proof. intros H. rewrite <- (app_nil_r a). apply ss_app; [exact H|apply ss_none]. Qed.
Lemma ss_firstn k a b : subsequence a b -> subsequence (firstn k a) b.
Proof.
  intros H; revert k; induction H; intros k.
  - destruct k; constructor.
  - destruct k; cbn [firstn]; [apply ss_none|constructor; auto].
  - constructor; auto.
Qed.
Lemma ss_trans a b c : subsequence a b -> subsequence b c -> subsequence a c.
Proof.
  intros H1 H2; revert a H1; induction H2 as [|x b c H2 IH|x b c H2 IH]; intros a H1.
  - exact H1.
  - inversion H1; subst; constructor; auto.
  - constructor; auto.
Qed.
Lemma ss_prefix a b : is_prefix a b -> subsequence a b.
Proof. intros [r ->]. apply ss_more, ss_refl. Qed.

(* ---- lifetimes ---- *)
Definition event_wf (e : event) : Prop := match e with EOp o => op_wf o | EFinish => True end.
Lemma life_ops {S A} (ops : dest_ops S) (fin : S -> option (S * A)) os : forall s evs,
  life ops fin s (map EOp os ++ evs) = (do s1 <- run ops s os ; life ops fin s1 evs).
Proof.
  induction os as [|o os IH]; intros s evs; cbn [map app life run obind]; [reflexivity|].
  destruct (run_op ops s o); cbn [obind]; [apply IH|reflexivity].
Qed.
(* a closed destination: C is kept by every operation and by finish *)
Lemma life_closed {S A} (ops : dest_ops S) (fin : S -> option (S * A)) (C : S -> Prop) (Q : A -> Prop)
  (L : full_laws ops (fun s _ => C s))
  (F : forall s, C s -> exists s' a, fin s = Some (s', a) /\ C s' /\ Q a) :
  forall evs s, C s -> Forall event_wf evs -> exists s' l, life ops fin s evs = Some (s', l) /\ C s' /\ Forall Q l.
Proof.
  induction evs as [|e evs IH]; intros s H Hw; cbn [life].
  - eauto.
  - inversion Hw as [|? ? He Hes]; subst. destruct e as [o|].
    + destruct (run_op_ok ops _ _ L s [] o H He) as (s1 & E1 & R1); [destruct o; auto|].
      rewrite E1; cbn [obind]. apply IH; assumption.
    + destruct (F s H) as (s1 & a & E1 & H1 & Ha). rewrite E1; cbn [obind fst snd].
      destruct (IH s1 H1 Hes) as (s2 & l & E2 & H2 & Hl). rewrite E2; cbn [obind fst snd]. eauto 10.
Qed.
Lemma life_finish {S A} (ops : dest_ops S) (fin : S -> option (S * A)) s s1 a evs s2 l os :
  run ops s os = Some s1 -> forall s1', fin s1 = Some (s1', a) -> life ops fin s1' evs = Some (s2, l) ->
  life ops fin s (map EOp os ++ EFinish :: evs) = Some (s2, a :: l).
Proof.
  intros E1 s1' E2 E3. rewrite life_ops, E1; cbn [obind life]. rewrite E2; cbn [obind fst snd].
  rewrite E3; reflexivity.
Qed.

(* files *)
Definition fw_closed (file : list Z) (count : Z) (s : fwr) : Prop :=
  fw_good s = false /\ fw_file s = file /\ fw_count s = count /\ (64 <= fw_cap s)%nat /\
  (length (fw_buf s) <= fw_cap s)%nat.
Ltac fwc := unfold fw_closed; cbn [fw_good fw_file fw_count fw_cap fw_buf length]; repeat split; auto; try lia.
Lemma fw_closed_laws file count (ops : dest_ops fwr) : ops = cf_ops \/ ops = sb_ops ->
  full_laws ops (fun s _ => fw_closed file count s).
Proof.
  intros Ho. constructor.
  - intros s t u (G & Hf & Hn & Hc & Hl) Hu.
    assert (Hu' : (length u <= fw_cap s - length (fw_buf s))%nat) by (destruct Ho; subst; exact Hu).
    assert (E : d_emit ops s u = fwr_emit s u) by (destruct Ho; subst; reflexivity).
    rewrite E. unfold fwr_emit. destruct (Nat.leb_spec (length (fw_buf s) + length u) (fw_cap s)); [|lia].
    eexists; split; [reflexivity|].
    split; [fwc; rewrite app_length; lia|].
    destruct Ho; subst ops; cbn [cf_ops sb_ops d_space d_good fw_cap fw_buf fw_good]; rewrite app_length; split; auto; lia.
  - intros s t (G & Hf & Hn & Hc & Hl).
    assert (E : d_recycle ops s = fwr_recycle s) by (destruct Ho; subst; reflexivity).
    rewrite E. unfold fwr_recycle. rewrite G. split; [fwc|].
    destruct Ho; subst ops; cbn [cf_ops sb_ops d_space fw_cap fw_buf length]; lia.
  - auto.
  - intros s t u (G & Hf & Hn & Hc & Hl) _ Hu.
    destruct Ho; subst ops; cbn [cf_ops sb_ops d_do_write]; unfold cf_do_write, sb_do_write; rewrite G;
      eexists; (split; [reflexivity|]); fwc.
Qed.
Lemma fw_fin s t : fwr_R s t \/ sbuf_R s t -> (64 <= fw_cap s)%nat /\ (length (fw_buf s) <= fw_cap s)%nat.
Proof. intros [H|H]; destruct H as (? & ? & _); auto. Qed.
Lemma cf_finish_closes s file n b : (64 <= fw_cap s)%nat /\ (length (fw_buf s) <= fw_cap s)%nat ->
  fwr_finish s = (file, n, b) -> exists s', cf_finish_st s = Some (s', (n, b)) /\ fw_closed file n s'.
Proof.
  intros (Hc & Hl). unfold fwr_finish, cf_finish_st. destruct (fw_good s) eqn:G.
  - destruct (dev_write _ _ _) as [[f o] inc]. intros [= <- <- <-]. rewrite (Nat.eqb_sym (length _)).
    eexists; split; [reflexivity|]. fwc.
  - intros [= <- <- <-]. eexists; split; [reflexivity|]. fwc.
Qed.
Lemma sb_finish_closes s file n b : (64 <= fw_cap s)%nat /\ (length (fw_buf s) <= fw_cap s)%nat ->
  fwr_finish s = (file, n, b) -> exists s', sb_finish_st s = Some (s', (n, b)) /\ fw_closed file n s'.
Proof.
  intros (Hc & Hl). unfold fwr_finish, sb_finish_st. destruct (fw_good s) eqn:G.
  - destruct (dev_write _ _ _) as [[f o] inc]. intros [= <- <- <-].
    eexists; split; [reflexivity|]. fwc.
  - intros [= <- <- <-]. eexists; split; [reflexivity|]. fwc.
Qed.
Lemma fw_destroy_closed file n s : fw_closed file n s -> fwr_destroy s = file.
Proof. intros (G & Hf & _). unfold fwr_destroy. rewrite G; exact Hf. Qed.
Lemma fw_destroy_open s : fwr_destroy s = fst (fst (fwr_finish s)).
Proof. unfold fwr_destroy, fwr_finish. destruct (fw_good s); [destruct (dev_write _ _ _) as [[? ?] ?]; reflexivity|reflexivity]. Qed.
Lemma fw_refinish file n s ops fin : (ops = cf_ops /\ fin = cf_finish_st) \/ (ops = sb_ops /\ fin = sb_finish_st) ->
  fw_closed file n s -> exists s' a, fin s = Some (s', a) /\ fw_closed file n s' /\ a = (n, false).
Proof.
  intros Ho H. assert (HH := H). destruct HH as (G & Hf & Hn & Hc & Hl).
  destruct Ho as [[-> ->]|[-> ->]]; unfold cf_finish_st, sb_finish_st; rewrite G;
    (eexists _, _; split; [reflexivity|]); (split; [|rewrite Hn; reflexivity]); [exact H|fwc].
Qed.

Lemma cf_lifetime cap oracle os evs : (64 <= cap)%nat -> Forall op_wf os -> Forall event_wf evs ->
  exists s file success later,
    life cf_ops cf_finish_st (fwr_init cap oracle) (map EOp os ++ EFinish :: evs)
      = Some (s, (zlen file, success) :: later) /\
    is_prefix file (ops_text os) /\ (success = true <-> file = ops_text os) /\
    Forall (fun r => r = (zlen file, false)) later /\ fwr_destroy s = file.
Proof.
  intros Hc Hw He.
  destruct (run_ok cf_ops _ cf_laws os _ _ (fwr_init_R cap oracle Hc) Hw) as (s1 & E1 & R1).
  destruct (fwr_finish_ok s1 _ R1) as (file & F & P & Q). cbn [app] in *.
  destruct (cf_finish_closes s1 file _ _ (fw_fin _ _ (or_introl R1)) F) as (s1' & E2 & C1).
  destruct (life_closed cf_ops cf_finish_st _ (fun r => r = (zlen file, false))
              (fw_closed_laws file (zlen file) cf_ops (or_introl eq_refl))
              (fun s => fw_refinish file (zlen file) s cf_ops cf_finish_st (or_introl (conj eq_refl eq_refl))) evs s1' C1 He)
    as (s2 & l & E3 & C2 & Hl).
  exists s2, file, (snd (fwr_finish s1)), l.
  split; [exact (life_finish _ _ _ _ _ _ _ _ _ E1 _ E2 E3)|].
  split; [exact P|]. split; [exact Q|]. split; [exact Hl|exact (fw_destroy_closed _ _ _ C2)].
Qed.
Lemma cf_dropped cap oracle os : (64 <= cap)%nat -> Forall op_wf os ->
  exists s, life cf_ops cf_finish_st (fwr_init cap oracle) (map EOp os) = Some (s, []) /\
    is_prefix (fwr_destroy s) (ops_text os) /\
    exists s' success, life cf_ops cf_finish_st (fwr_init cap oracle) (map EOp os ++ [EFinish])
                         = Some (s', [(zlen (fwr_destroy s), success)]) /\ fwr_destroy s' = fwr_destroy s.
Proof.
  intros Hc Hw.
  destruct (run_ok cf_ops _ cf_laws os _ _ (fwr_init_R cap oracle Hc) Hw) as (s1 & E1 & R1).
  destruct (fwr_finish_ok s1 _ R1) as (file & F & P & Q). cbn [app] in *.
  assert (D : fwr_destroy s1 = file) by (rewrite fw_destroy_open, F; reflexivity).
  destruct (cf_finish_closes s1 file _ _ (fw_fin _ _ (or_introl R1)) F) as (s1' & E2 & C1).
  exists s1. rewrite <- (app_nil_r (map EOp os)), life_ops, E1. split; [reflexivity|].
  rewrite D. split; [exact P|]. exists s1', (snd (fwr_finish s1)).
  rewrite app_nil_r. split; [exact (life_finish _ _ _ _ _ [] _ _ _ E1 _ E2 eq_refl)|exact (fw_destroy_closed _ _ _ C1)].
Qed.
Lemma sb_lifetime oracle os evs : Forall op_wf os -> Forall event_wf evs ->
  exists s file success later,
    life sb_ops sb_finish_st (fwr_init 64 oracle) (map EOp os ++ EFinish :: evs)
      = Some (s, (zlen file, success) :: later) /\
    subsequence file (ops_text os) /\ (success = true <-> file = ops_text os) /\
    Forall (fun r => r = (zlen file, false)) later /\ fwr_destroy s = file.
Proof.
  intros Hw He.
  destruct (run_ok sb_ops _ sbuf_laws os _ _ (sbuf_weaken _ _ (fwr_init_R 64 oracle (le_n _))) Hw) as (s1 & E1 & R1).
  destruct (sbuf_finish_ok s1 _ R1) as (file & F & (a & b & c & d & P1 & P2) & Q). cbn [app] in *.
  destruct (sb_finish_closes s1 file _ _ (fw_fin _ _ (or_intror R1)) F) as (s1' & E2 & C1).
  destruct (life_closed sb_ops sb_finish_st _ (fun r => r = (zlen file, false))
              (fw_closed_laws file (zlen file) sb_ops (or_intror eq_refl))
              (fun s => fw_refinish file (zlen file) s sb_ops sb_finish_st (or_intror (conj eq_refl eq_refl))) evs s1' C1 He)
    as (s2 & l & E3 & C2 & Hl).
  exists s2, file, (snd (fwr_finish s1)), l.
  split; [exact (life_finish _ _ _ _ _ _ _ _ _ E1 _ E2 E3)|].
  split; [|split; [exact Q|split; [exact Hl|exact (fw_destroy_closed _ _ _ C2)]]].
  rewrite P1, P2. apply ss_app; [apply ss_refl|]. change c with ([] ++ c). apply ss_app; [apply ss_none|]. apply ss_more, ss_refl.
Qed.

(* C strings: after finish nothing reaches the user's buffer *)
Definition c_closed (buf : list Z) (s : cstr) : Prop :=
  c_good s = false /\ c_region s = false /\ c_end s = 64%nat /\ (c_ptr s <= 64)%nat /\ c_buf s = buf.
Ltac cc := unfold c_closed; cbn [c_good c_region c_end c_ptr c_buf]; repeat split; auto; try lia.
Lemma c_closed_emit buf s u : c_closed buf s -> (length u <= c_end s - c_ptr s)%nat ->
  exists s', cstr_emit s u = Some s' /\ c_closed buf s' /\
    (c_end s' - c_ptr s' = c_end s - c_ptr s - length u)%nat /\ c_good s' = c_good s.
Proof.
  intros (G & Hr & He & Hp & Hb) Hu. unfold cstr_emit, garbage_size. rewrite Hr.
  destruct (Nat.leb_spec (c_ptr s + length u) (c_end s)); [|lia].
  destruct (Nat.leb_spec (c_ptr s + length u) 64); [|lia].
  eexists; split; [reflexivity|]. split; [cc|]. cbn [c_end c_ptr c_good]. split; [lia|reflexivity].
Qed.
Lemma c_closed_laws buf : full_laws cstr_ops (fun s _ => c_closed buf s).
Proof.
  constructor; cbn [cstr_ops d_space d_good d_emit d_recycle d_do_write].
  - intros s t u H Hu. apply c_closed_emit; assumption.
  - intros s t (G & Hr & He & Hp & Hb). unfold cstr_recycle. rewrite G. split; [cc|cbn [c_end c_ptr]; lia].
  - auto.
  - intros s t u H _ Hu. unfold cstr_do_write. set (sub := (c_end s - c_ptr s)%nat) in *.
    destruct (Nat.ltb_spec (length u) sub); [lia|].
    destruct (c_closed_emit buf s (firstn sub u) H) as (s1 & E1 & C1 & _); [rewrite firstn_length; lia|].
    rewrite E1; cbn [obind]. eexists; split; [reflexivity|]. destruct C1 as (_ & _ & _ & _ & Hb). unfold garbage_size; cc.
Qed.
Lemma cstr_lifetime buf os os' : (1 <= length buf)%nat -> Forall op_wf os -> no_overflow_when_bad (cstr_init buf) os ->
  Forall op_wf os' ->
  exists s k tr, life cstr_ops cstr_finish_st (cstr_init buf) (map EOp os ++ EFinish :: map EOp os') = Some (s, [((true, k), tr)]) /\
    length (c_buf s) = length buf /\ nth k (c_buf s) 1 = 0 /\ is_prefix (firstn k (c_buf s)) (ops_text os) /\
    (tr = false -> firstn k (c_buf s) = ops_text os).
Proof.
  intros Hb Hw Hn Hw'.
  destruct (cstr_run 1 (length buf) os _ _ (cstr_init_R buf Hb) Hw Hn) as (s1 & E1 & R1).
  destruct (cstr_finish_ok (length buf) s1 _ Hb R1) as (buf' & k & tr & F & L & K & N & P & W & T).
  assert (E2 : exists s1', cstr_finish_st s1 = Some (s1', ((true, k), tr)) /\ c_closed buf' s1').
  { unfold cstr_finish in F. unfold cstr_finish_st.
    destruct (if c_good s1 then Some (c_region s1, c_ptr s1) else c_it s1) as [[[|] j]|]; try discriminate.
    - destruct (j <? length (c_buf s1))%nat; [|discriminate]. injection F as <- <- <-.
      eexists; split; [reflexivity|]. unfold garbage_size; cc.
    - destruct (j <? garbage_size)%nat; discriminate. }
  destruct E2 as (s1' & E2 & C1).
  destruct (run_ok cstr_ops _ (c_closed_laws buf') os' s1' [] C1 Hw') as (s2 & E3 & C2).
  exists s2, k, tr.
  split.
  - apply (life_finish _ _ _ _ _ (map EOp os') _ _ _ E1 _ E2).
    rewrite <- (app_nil_r (map EOp os')), life_ops, E3. reflexivity.
  - destruct C2 as (_ & _ & _ & _ & ->). auto.
Qed.

(* strings *)
Definition sa_closed (str : list Z) (s : sapp) : Prop := sa_good s = false /\ (length (sa_buf s) <= 64)%nat /\ sa_str s = str.
Lemma sa_closed_laws str : full_laws sapp_ops (fun s _ => sa_closed str s).
Proof.
  constructor; cbn [sapp_ops d_space d_good d_emit d_recycle d_do_write];
    unfold sa_closed, sapp_emit, sapp_recycle, sapp_do_write, min_buf.
  - intros s t u (G & Hl & Ht) Hu. destruct (Nat.leb_spec (length (sa_buf s) + length u) 64); [|lia].
    eexists; split; [reflexivity|]; cbn [sa_str sa_buf sa_good]. rewrite app_length. repeat split; auto; lia.
  - intros s t (G & Hl & Ht). rewrite G; cbn [sa_str sa_buf sa_good length]. repeat split; auto; lia.
  - auto.
  - intros s t u (G & Hl & Ht) _ Hu. rewrite G. eexists; split; [reflexivity|].
    cbn [sa_str sa_buf sa_good length]. repeat split; auto; lia.
Qed.
Lemma sapp_lifetime str0 os evs : Forall op_wf os -> Forall event_wf evs ->
  exists s l, life sapp_ops sapp_finish_st (sapp_init str0) (map EOp os ++ EFinish :: evs) = Some (s, l) /\
    sapp_destroy s = str0 ++ ops_text os.
Proof.
  intros Hw He.
  destruct (run_ok sapp_ops _ (sapp_laws str0) os (sapp_init str0) []) as (s1 & E1 & R1);
    [repeat split; cbn; lia|exact Hw|]. cbn [app] in R1. destruct R1 as (G & Hl & Ht).
  assert (E2 : sapp_finish_st s1 = Some ({| sa_str := str0 ++ ops_text os; sa_buf := sa_buf s1; sa_good := false |}, tt)).
  { unfold sapp_finish_st. rewrite G, Ht. reflexivity. }
  destruct (life_closed sapp_ops sapp_finish_st (sa_closed (str0 ++ ops_text os)) (fun _ => True) (sa_closed_laws _)
              ) with (evs := evs) (s := {| sa_str := str0 ++ ops_text os; sa_buf := sa_buf s1; sa_good := false |})
    as (s2 & l & E3 & C2 & _).
  - intros s H. unfold sapp_finish_st. destruct (sa_good s) eqn:G'; [destruct H; congruence|]. eauto.
  - repeat split; auto.
  - exact He.
  - exists s2, (tt :: l). split; [exact (life_finish _ _ _ _ _ _ _ _ _ E1 _ E2 E3)|].
    destruct C2 as (G2 & _ & Hs). unfold sapp_destroy. rewrite G2; exact Hs.
Qed.
Lemma sapp_dropped str0 os : Forall op_wf os ->
  exists s, life sapp_ops sapp_finish_st (sapp_init str0) (map EOp os) = Some (s, []) /\
    sapp_destroy s = str0 ++ ops_text os.
Proof.
  intros Hw.
  destruct (run_ok sapp_ops _ (sapp_laws str0) os (sapp_init str0) []) as (s1 & E1 & R1);
    [repeat split; cbn; lia|exact Hw|]. cbn [app] in R1. destruct R1 as (G & Hl & Ht).
  exists s1. rewrite <- (app_nil_r (map EOp os)), life_ops, E1. split; [reflexivity|].
  unfold sapp_destroy. rewrite G; exact Ht.
Qed.
Definition sm_closed (s : smak) : Prop := sm_good s = false /\ (length (sm_buf s) <= 64)%nat.
Lemma sm_closed_laws : full_laws smak_ops (fun s _ => sm_closed s).
Proof.
  constructor; cbn [smak_ops d_space d_good d_emit d_recycle d_do_write];
    unfold sm_closed, smak_emit, smak_recycle, smak_do_write, min_buf.
  - intros s t u (G & Hl) Hu. destruct (Nat.leb_spec (length (sm_buf s) + length u) 64); [|lia].
    eexists; split; [reflexivity|]; cbn [sm_str sm_buf sm_good]. rewrite app_length. repeat split; auto; lia.
  - intros s t (G & Hl). rewrite G; cbn [sm_str sm_buf sm_good length]. repeat split; auto; lia.
  - auto.
  - intros s t u (G & Hl) _ Hu. rewrite G. eexists; split; [reflexivity|]. auto.
Qed.
Lemma smak_lifetime os evs : Forall op_wf os -> Forall event_wf evs ->
  exists s later, life smak_ops smak_finish_st smak_init (map EOp os ++ EFinish :: evs) = Some (s, ops_text os :: later) /\
    Forall (fun r => r = []) later.
Proof.
  intros Hw He.
  destruct (run_ok smak_ops _ smak_laws os smak_init []) as (s1 & E1 & R1);
    [repeat split; cbn; lia|exact Hw|]. cbn [app] in R1. destruct R1 as (G & Hl & Ht).
  assert (E2 : exists s1', smak_finish_st s1 = Some (s1', ops_text os) /\ sm_closed s1').
  { unfold smak_finish_st. rewrite G. destruct (sm_str s1); rewrite <- Ht; eexists; (split; [reflexivity|]);
      unfold sm_closed; cbn; auto. }
  destruct E2 as (s1' & E2 & C1).
  destruct (life_closed smak_ops smak_finish_st sm_closed (fun r => r = []) sm_closed_laws) with (evs := evs) (s := s1')
    as (s2 & l & E3 & C2 & Hl2).
  - intros s H. unfold smak_finish_st. destruct (sm_good s) eqn:G'; [destruct H; congruence|]. eauto.
  - exact C1.
  - exact He.
  - exists s2, l. split; [exact (life_finish _ _ _ _ _ _ _ _ _ E1 _ E2 E3)|exact Hl2].
Qed.

(* ---- exceptions ---- *)
(* R: a state reached; B: a state in which an operation threw *)
Record xlaws {S} (x : xops S) (R B : S -> list Z -> Prop) : Prop := {
  xl_emit : forall s t u, R s t -> (length u <= x_space x s)%nat ->
     exists s', x_emit x s u = Some s' /\ R s' (t ++ u)
                /\ x_space x s' = (x_space x s - length u)%nat /\ x_good x s' = x_good x s;
  xl_recycle : forall s t, R s t ->
     if snd (x_recycle x s) then B (fst (x_recycle x s)) t
     else R (fst (x_recycle x s)) t /\ (64 <= x_space x (fst (x_recycle x s)))%nat;
  xl_bad : forall s t u, R s t -> x_good x s = false -> R s (t ++ u);
  xl_B : forall s t u, B s t -> B s (t ++ u);
  xl_B_R : forall s t, B s t -> R s t;
  xl_do_write : forall s t u, R s t -> (x_space x s < length u)%nat ->
     exists r, x_do_write x s u = Some r /\ if snd r then B (fst r) (t ++ u) else R (fst r) (t ++ u) }.
Definition xR {S} (R B : S -> list Z -> Prop) (r : running S) (t : list Z) : Prop :=
  match r with Going s => R s t | Thrown s _ => B s t end.
Lemma exn_laws_gen {S} (x : xops S) (R B : S -> list Z -> Prop) (P : running S -> Prop) :
  (forall s t u, R s t -> (length u <= x_space x s)%nat ->
     exists s', x_emit x s u = Some s' /\ R s' (t ++ u)
                /\ x_space x s' = (x_space x s - length u)%nat /\ x_good x s' = x_good x s) ->
  (forall s t, R s t ->
     if snd (x_recycle x s) then B (fst (x_recycle x s)) t
     else R (fst (x_recycle x s)) t /\ (64 <= x_space x (fst (x_recycle x s)))%nat) ->
  (forall s t u, R s t -> x_good x s = false -> R s (t ++ u)) ->
  (forall s t u, B s t -> B s (t ++ u)) ->
  (forall s t u, R s t -> P (Going s) -> (x_space x s < length u)%nat ->
     exists r, x_do_write x s u = Some r /\ if snd r then B (fst r) (t ++ u) else R (fst r) (t ++ u)) ->
  dest_laws (exn_ops x) (xR R B) P.
Proof.
  intros L1 L2 L3 L4 L5. constructor; cbn [exn_ops d_space d_good d_emit d_recycle d_do_write].
  - intros [s|s n] t u H Hu.
    + destruct (L1 s t u H Hu) as (s' & E & R' & Hs & Hg). rewrite E. exists (Going s'). auto.
    + destruct (Nat.leb_spec (length u) n); [|lia]. eexists; split; [reflexivity|]. cbn [xR]. split; [apply L4; exact H|]. auto.
  - intros [s|s n] t H; [|split; [exact H|lia]]. specialize (L2 s t H). unfold after.
    destruct (x_recycle x s) as [s' [|]]; cbn [fst snd] in *; [split; [exact L2|lia]|exact L2].
  - intros [s|s n] t u H G; cbn [xR] in *; auto.
  - intros [s|s n] t u H HP Hu.
    + destruct (L5 s t u H HP Hu) as ([s' b] & E & Hr). rewrite E. unfold after. cbn [fst snd option_map] in *.
      exists (if b then Thrown s' 64 else Going s'). destruct b; auto.
    + exists (Thrown s n). split; [reflexivity|]. cbn [xR]. apply L4; exact H.
Qed.
Lemma exn_laws {S} (x : xops S) R B : xlaws x R B -> full_laws (exn_ops x) (xR R B).
Proof. intros [L1 L2 L3 L4 L5 L6]. apply exn_laws_gen; auto. Qed.
Lemma run_catching_ok {S} (x : xops S) R B (L : xlaws x R B) os : forall s t, R s t -> Forall op_wf os ->
  exists s' l, run_catching x s os = Some (s', l) /\ R s' (t ++ ops_text os) /\ length l = length os.
Proof.
  induction os as [|o os IH]; intros s t H Hw; cbn [run_catching].
  - exists s, []. rewrite app_nil_r. auto.
  - inversion Hw as [|? ? Ho Hos]; subst.
    destruct (run_op_ok (exn_ops x) _ _ (exn_laws x R B L) (Going s) t o H Ho) as (r & E & HR); [destruct o; auto|].
    rewrite E; cbn [obind].
    assert (H1 : R (caught r) (t ++ op_text o)).
    { destruct r as [s1|s1 n]; cbn [xR caught] in *; [exact HR|apply (xl_B_R _ _ _ L); exact HR]. }
    destruct (IH _ _ H1 Hos) as (s2 & l & E2 & H2 & Hl). rewrite E2; cbn [obind fst snd].
    exists s2, (threw r :: l). split; [reflexivity|]. split; [|cbn [length]; lia].
    unfold ops_text in *; cbn [map concat]. rewrite app_assoc. exact H2.
Qed.

(* the appender *)
Lemma try_append_cases o str u :
  (exists o', o = true :: o' /\ try_append o str u = (str, o', true)) \/
  (exists used o', o = used ++ o' /\ ~ In true used /\ try_append o str u = (str ++ u, o', false)).
Proof.
  destruct o as [|[|] o]; [right|left|right]; cbn [try_append].
  - exists [], []. cbn; auto.
  - eauto.
  - exists [false], o. split; [reflexivity|]. split; [intros [|[]]; discriminate|reflexivity].
Qed.
Lemma is_prefix_trans_app {A} (a b c : list A) : is_prefix a b -> is_prefix a (b ++ c).
Proof. apply is_prefix_app_r. Qed.
Section Appender.
  Variables (str0 : list Z) (o0 : list bool).
  Definition axR (s : sappx) (t : list Z) : Prop :=
    (length (sa_buf (ax_s s)) <= 64)%nat /\
    (exists used, o0 = used ++ ax_o s /\ (sa_good (ax_s s) = false -> In true used)) /\
    is_prefix str0 (sa_str (ax_s s)) /\
    if sa_good (ax_s s) then sa_str (ax_s s) ++ sa_buf (ax_s s) = str0 ++ t
    else is_prefix (sa_str (ax_s s)) (str0 ++ t).
  Definition axB (s : sappx) (t : list Z) : Prop := axR s t /\ sa_good (ax_s s) = false.
  Lemma axR_bad s t u : axR s t -> sa_good (ax_s s) = false -> axR s (t ++ u).
  Proof.
    intros (Hl & Hu & Hp & H) G. unfold axR. rewrite G in *. split; [exact Hl|]. split; [exact Hu|]. split; [exact Hp|].
    rewrite app_assoc. apply is_prefix_app_r; exact H.
  Qed.
  Ltac axs := unfold axB, axR; cbn [ax_s ax_o sa_str sa_buf sa_good length negb].
  Lemma ax_laws : xlaws ax_ops axR axB.
  Proof.
    constructor; cbn [ax_ops x_space x_good x_emit x_recycle x_do_write].
    - intros s t u (Hl & Hu & Hp & H) Hk. unfold sapp_emit, min_buf in *.
      destruct (Nat.leb_spec (length (sa_buf (ax_s s)) + length u) 64); [|lia].
      eexists; split; [reflexivity|]. axs. rewrite app_length. split; [|split; [lia|reflexivity]].
      split; [lia|]. split; [exact Hu|]. split; [exact Hp|]. destruct (sa_good (ax_s s)).
      + rewrite !app_assoc. rewrite H. reflexivity.
      + rewrite app_assoc; apply is_prefix_app_r; exact H.
    - intros s t HR. assert (HH := HR). destruct HH as (Hl & (used & Hu & Hb) & Hp & H). unfold ax_recycle, min_buf.
      destruct (sa_good (ax_s s)) eqn:G.
      + destruct (try_append_cases (ax_o s) (sa_str (ax_s s)) (sa_buf (ax_s s))) as [(o' & E1 & E2)|(us & o' & E1 & N & E2)];
          rewrite E2; cbn [fst snd].
        * axs. split; [|reflexivity]. split; [lia|]. split.
          { exists (used ++ [true]). split; [rewrite Hu, E1, <- app_assoc; reflexivity|]. intros _; apply in_or_app; right; left; reflexivity. }
          split; [exact Hp|]. rewrite <- H. exists (sa_buf (ax_s s)); reflexivity.
        * axs. split; [|cbn; lia]. split; [lia|]. split.
          { exists (used ++ us). split; [rewrite Hu, E1, <- app_assoc; reflexivity|discriminate]. }
          split; [apply is_prefix_app_r; exact Hp|]. rewrite app_nil_r; exact H.
      + cbn [fst snd]. axs. split; [|lia]. split; [lia|]. split; [exists used; auto|]. split; assumption.
    - intros s t u H G. apply axR_bad; assumption.
    - intros s t u (H & G). split; [apply axR_bad; assumption|exact G].
    - intros s t (H & _); exact H.
    - intros s t u HR Hk. assert (HH := HR). destruct HH as (Hl & (used & Hu & Hb) & Hp & H).
      eexists; split; [reflexivity|].
      destruct (sa_good (ax_s s)) eqn:G.
      + destruct (try_append_cases (ax_o s) (sa_str (ax_s s)) (sa_buf (ax_s s))) as [(o' & E1 & E2)|(us & o' & E1 & N & E2)];
          rewrite E2; cbn [fst snd].
        * axs. split; [|reflexivity]. split; [lia|]. split.
          { exists (used ++ [true]). split; [rewrite Hu, E1, <- app_assoc; reflexivity|]. intros _; apply in_or_app; right; left; reflexivity. }
          split; [exact Hp|]. rewrite app_assoc, <- H. rewrite <- app_assoc. eexists; reflexivity.
        * destruct (try_append_cases o' (sa_str (ax_s s) ++ sa_buf (ax_s s)) u) as [(o2 & E3 & E4)|(us2 & o2 & E3 & N2 & E4)];
            rewrite E4; cbn [fst snd].
          -- axs. split; [|reflexivity]. split; [lia|]. split.
             { exists ((used ++ us) ++ [true]). split; [rewrite Hu, E1, E3, <- !app_assoc; reflexivity|].
               intros _; apply in_or_app; right; left; reflexivity. }
             split; [apply is_prefix_app_r; exact Hp|]. rewrite app_assoc, <- H. eexists; reflexivity.
          -- axs. split; [lia|]. split.
             { exists ((used ++ us) ++ us2). split; [rewrite Hu, E1, E3, <- !app_assoc; reflexivity|discriminate]. }
             split; [apply is_prefix_app_r, is_prefix_app_r; exact Hp|]. rewrite app_nil_r, app_assoc, H. reflexivity.
      + cbn [fst snd]. axs. split; [lia|]. split; [exists used; auto|]. split; [exact Hp|].
        rewrite app_assoc. apply is_prefix_app_r; exact H.
  Qed.
End Appender.
Lemma appender_exceptions str0 throws os : Forall op_wf os ->
  exists s l, run_catching ax_ops (ax_init str0 throws) os = Some (s, l) /\ length l = length os /\
    is_prefix str0 (ax_destroy s) /\ is_prefix (ax_destroy s) (str0 ++ ops_text os) /\
    (~ In true throws -> ax_destroy s = str0 ++ ops_text os).
Proof.
  intros Hw.
  destruct (run_catching_ok ax_ops _ _ (ax_laws str0 throws) os (ax_init str0 throws) []) as (s & l & E & HR & Hl).
  - unfold axR, ax_init; cbn. split; [lia|]. split; [exists []; split; [reflexivity|discriminate]|].
    split; [apply is_prefix_refl|reflexivity].
  - exact Hw.
  - cbn [app] in HR. exists s, l. split; [exact E|]. split; [exact Hl|].
    destruct HR as (Hb & (used & Hu & Hgb) & Hp & H). unfold ax_destroy. destruct (sa_good (ax_s s)) eqn:G.
    + destruct (try_append_cases (ax_o s) (sa_str (ax_s s)) (sa_buf (ax_s s))) as [(o' & E1 & E2)|(us & o' & E1 & N & E2)];
        rewrite E2; cbn [fst].
      * split; [exact Hp|]. split; [rewrite <- H; eexists; reflexivity|].
        intros Hn; exfalso; apply Hn. rewrite Hu, E1. apply in_or_app; right; left; reflexivity.
      * split; [apply is_prefix_app_r; exact Hp|]. rewrite H. split; [apply is_prefix_refl|reflexivity].
    + split; [exact Hp|]. split; [exact H|]. intros Hn; exfalso; apply Hn. rewrite Hu. apply in_or_app; left; auto.
Qed.

(* the maker: all or nothing *)
Section Maker.
  Variable o0 : list bool.
  Definition mxR (s : smakx) (t : list Z) : Prop :=
    (length (sm_buf (mx_s s)) <= 64)%nat /\
    (exists used, o0 = used ++ mx_o s /\ (sm_good (mx_s s) = false -> In true used)) /\
    (sm_good (mx_s s) = true -> (match sm_str (mx_s s) with None => [] | Some x => x end) ++ sm_buf (mx_s s) = t).
  Definition mxB (s : smakx) (t : list Z) : Prop := mxR s t /\ sm_good (mx_s s) = false.
  Ltac mxs := unfold mxB, mxR; cbn [mx_s mx_o sm_str sm_buf sm_good length negb].
  Lemma mx_thrown used o : o0 = used ++ true :: o -> exists us, o0 = us ++ o /\ (false = false -> In true us).
  Proof.
    intros ->. exists (used ++ [true]). split; [rewrite <- app_assoc; reflexivity|].
    intros _; apply in_or_app; right; left; reflexivity.
  Qed.
  Lemma mx_bad s t u : mxR s t -> sm_good (mx_s s) = false -> mxR s (t ++ u).
  Proof. intros (Hl & Hu & H) G. split; [exact Hl|]. split; [exact Hu|]. rewrite G; discriminate. Qed.
  Ltac thrown := mxs; split; [|reflexivity]; split; [lia|]; split; [eapply mx_thrown; eassumption|discriminate].
  Lemma mx_laws : xlaws mx_ops mxR mxB.
  Proof.
    constructor; cbn [mx_ops x_space x_good x_emit x_recycle x_do_write].
    - intros s t u (Hl & Hu & H) Hk. unfold smak_emit, min_buf in *.
      destruct (Nat.leb_spec (length (sm_buf (mx_s s)) + length u) 64); [|lia].
      eexists; split; [reflexivity|]. mxs. rewrite app_length. split; [|split; [lia|reflexivity]].
      split; [lia|]. split; [exact Hu|]. intros G. rewrite app_assoc, H by exact G. reflexivity.
    - intros s t (Hl & (used & Hu & Hb) & H). unfold mx_recycle, min_buf.
      destruct (sm_good (mx_s s)) eqn:G.
      + specialize (H eq_refl). destruct (sm_str (mx_s s)) as [x|] eqn:Ex.
        * destruct (try_append_cases (mx_o s) x (sm_buf (mx_s s))) as [(o' & E1 & E2)|(us & o' & E1 & N & E2)];
            rewrite E2; cbn [fst snd]; rewrite E1 in Hu.
          -- thrown.
          -- mxs. split; [|cbn; lia]. split; [lia|]. split; [|intros _; rewrite app_nil_r; exact H].
             exists (used ++ us). split; [rewrite Hu, <- app_assoc; reflexivity|discriminate].
        * destruct (try_append_cases (mx_o s) [] (sm_buf (mx_s s))) as [(o' & E1 & E2)|(us & o' & E1 & N & E2)];
            rewrite E2; cbn [fst snd]; rewrite E1 in Hu.
          -- thrown.
          -- mxs. split; [|cbn; lia]. split; [lia|]. split; [|intros _; rewrite app_nil_r; exact H].
             exists (used ++ us). split; [rewrite Hu, <- app_assoc; reflexivity|discriminate].
      + cbn [fst snd]. mxs. split; [|lia]. split; [lia|]. split; [exists used; auto|discriminate].
    - intros s t u H G. apply mx_bad; assumption.
    - intros s t u (H & G). split; [apply mx_bad; assumption|exact G].
    - intros s t (H & _); exact H.
    - intros s t u (Hl & (used & Hu & Hb) & H) Hk.
      eexists; split; [reflexivity|].
      destruct (sm_good (mx_s s)) eqn:G.
      + specialize (H eq_refl). destruct (sm_str (mx_s s)) as [x|] eqn:Ex.
        * destruct (try_append_cases (mx_o s) x (sm_buf (mx_s s))) as [(o' & E1 & E2)|(us & o' & E1 & N & E2)];
            rewrite E2; cbn [fst snd]; rewrite E1 in Hu; [thrown|]. rewrite app_assoc in Hu.
          destruct (try_append_cases o' (x ++ sm_buf (mx_s s)) u) as [(o2 & E3 & E4)|(us2 & o2 & E3 & N2 & E4)];
            rewrite E4; cbn [fst snd]; rewrite E3 in Hu; [thrown|].
          mxs. split; [lia|]. split; [|intros _; rewrite app_nil_r, H; reflexivity].
          exists ((used ++ us) ++ us2). split; [rewrite Hu, <- !app_assoc; reflexivity|discriminate].
        * destruct (try_append_cases (mx_o s) [] []) as [(o' & E1 & E2)|(us & o' & E1 & N & E2)];
            rewrite E2; cbn [fst snd]; rewrite E1 in Hu; [thrown|]. rewrite app_assoc in Hu.
          destruct (try_append_cases o' ([] ++ []) (sm_buf (mx_s s))) as [(o2 & E3 & E4)|(us2 & o2 & E3 & N2 & E4)];
            rewrite E4; cbn [fst snd]; rewrite E3 in Hu; [thrown|]. rewrite app_assoc in Hu.
          destruct (try_append_cases o2 (([] ++ []) ++ sm_buf (mx_s s)) u) as [(o3 & E5 & E6)|(us3 & o3 & E5 & N3 & E6)];
            rewrite E6; cbn [fst snd]; rewrite E5 in Hu; [thrown|].
          mxs. split; [lia|]. split; [|intros _; cbn [app] in *; rewrite app_nil_r, H; reflexivity].
          exists (((used ++ us) ++ us2) ++ us3). split; [rewrite Hu, <- !app_assoc; reflexivity|discriminate].
      + cbn [fst snd]. mxs. split; [exact Hl|]. split; [exists used; auto|]. rewrite G; discriminate.
  Qed.
End Maker.
Lemma maker_exceptions throws os : Forall op_wf os ->
  exists s l, run_catching mx_ops (mx_init throws) os = Some (s, l) /\ length l = length os /\
    (mx_finish s = None \/ mx_finish s = Some [] \/ mx_finish s = Some (ops_text os)) /\
    (~ In true throws -> mx_finish s = Some (ops_text os)).
Proof.
  intros Hw.
  destruct (run_catching_ok mx_ops _ _ (mx_laws throws) os (mx_init throws) []) as (s & l & E & HR & Hl).
  - unfold mxR, mx_init; cbn. split; [lia|]. split; [exists []; split; [reflexivity|discriminate]|reflexivity].
  - exact Hw.
  - cbn [app] in HR. exists s, l. split; [exact E|]. split; [exact Hl|].
    destruct HR as (Hb & (used & Hu & Hgb) & H). unfold mx_finish. destruct (sm_good (mx_s s)) eqn:G.
    + specialize (H eq_refl).
      destruct (try_append_cases (mx_o s) (match sm_str (mx_s s) with None => [] | Some x => x end) (sm_buf (mx_s s)))
        as [(o' & E1 & E2)|(us & o' & E1 & N & E2)]; rewrite E2.
      * split; [auto|]. intros Hn; exfalso; apply Hn. rewrite Hu, E1. apply in_or_app; right; left; reflexivity.
      * rewrite H. auto.
    + split; [auto|]. intros Hn; exfalso; apply Hn. rewrite Hu. apply in_or_app; left; auto.
Qed.

(* the sized maker *)
Section Sized.
  Variable o0 : list bool.
  Definition zx_text (s : szmkx) : list Z := szmk_finish (zx_s s).
  Definition zxR (s : szmkx) (t : list Z) : Prop :=
    (sz_ptr (zx_s s) <= sz_end (zx_s s) <= length (sz_str (zx_s s)))%nat /\
    (exists used, o0 = used ++ zx_o s) /\ subsequence (zx_text s) t /\ (~ In true o0 -> zx_text s = t).
  Definition zxB (s : szmkx) (t : list Z) : Prop :=
    (sz_ptr (zx_s s) <= sz_end (zx_s s) <= length (sz_str (zx_s s)))%nat /\
    (exists used, o0 = used ++ zx_o s) /\ subsequence (zx_text s) t /\ In true o0.
  Lemma zx_laws_emit : forall s t u, zxR s t -> (length u <= x_space zx_ops0 s)%nat ->
     exists s', x_emit zx_ops0 s u = Some s' /\ zxR s' (t ++ u)
                /\ x_space zx_ops0 s' = (x_space zx_ops0 s - length u)%nat /\ x_good zx_ops0 s' = x_good zx_ops0 s.
  Proof.
    cbn [zx_ops0 x_space x_good x_emit]. intros s t u (Hb & Hu & Hs & He) Hk.
    destruct (law_emit _ _ _ szmk_laws0 (zx_s s) (zx_text s) u (conj Hb eq_refl) Hk) as (s' & E & (Hb' & Ht) & Hsp & Hg).
    cbn [szmk_ops0 d_emit d_space] in E, Hsp. rewrite E. eexists; split; [reflexivity|].
    unfold zxR, zx_text, szmk_finish; cbn [zx_s zx_o]. split; [|auto]. split; [exact Hb'|]. split; [exact Hu|].
    rewrite Ht. split; [apply ss_app; [exact Hs|apply ss_refl]|]. intros Hn. rewrite He by exact Hn. reflexivity.
  Qed.
  Lemma zx_laws_recycle : forall s t, zxR s t ->
     if snd (x_recycle zx_ops0 s) then zxB (fst (x_recycle zx_ops0 s)) t
     else zxR (fst (x_recycle zx_ops0 s)) t /\ (64 <= x_space zx_ops0 (fst (x_recycle zx_ops0 s)))%nat.
  Proof.
    cbn [zx_ops0 x_space x_good x_recycle]. intros s t (Hb & (used & Hu) & Hs & He).
    assert (Hgo : forall o', (exists us, o0 = us ++ o') ->
       zxR (mk_szmkx (szmk_recycle (zx_s s)) o') t /\
       (64 <= sz_end (zx_s (mk_szmkx (szmk_recycle (zx_s s)) o')) - sz_ptr (zx_s (mk_szmkx (szmk_recycle (zx_s s)) o')))%nat).
    { intros o' Ho'. destruct (law_recycle _ _ _ szmk_laws0 (zx_s s) (zx_text s) (conj Hb eq_refl)) as ((Hb' & Ht) & Hsp).
      cbn [szmk_ops0 d_recycle d_space] in *. cbn [zx_s]. split; [|exact Hsp].
      unfold zxR, zx_text, szmk_finish; cbn [zx_s zx_o]. rewrite Ht. auto. }
    unfold zx_recycle. destruct (zx_o s) as [|[|] o] eqn:Eo; cbn [fst snd tl].
    - apply Hgo. exists used; exact Hu.
    - split; [exact Hb|]. split; [exists (used ++ [true]); rewrite Hu, <- app_assoc; reflexivity|].
      split; [exact Hs|]. rewrite Hu. apply in_or_app; right; left; reflexivity.
    - apply Hgo. exists (used ++ [false]). rewrite Hu, <- app_assoc; reflexivity.
  Qed.
  Lemma zx_B_more : forall s t u, zxB s t -> zxB s (t ++ u).
  Proof. intros s t u (Hb & Hu & Hs & Hi). split; [exact Hb|]. split; [exact Hu|]. split; [apply ss_more; exact Hs|exact Hi]. Qed.
  Lemma zx_laws0 : dest_laws (exn_ops zx_ops0) (xR zxR zxB) (fun _ => False).
  Proof.
    apply exn_laws_gen.
    - exact zx_laws_emit.
    - exact zx_laws_recycle.
    - intros s t u _ G; discriminate.
    - exact zx_B_more.
    - intros ? ? ? ? [].
  Qed.
  Lemma zx_laws : xlaws zx_ops zxR zxB.
  Proof.
    constructor.
    - exact zx_laws_emit.
    - exact zx_laws_recycle.
    - intros s t u _ G; discriminate.
    - exact zx_B_more.
    - intros s t (Hb & Hu & Hs & Hi). split; [exact Hb|]. split; [exact Hu|]. split; [exact Hs|]. intros Hn; contradiction.
    - intros s t u H Hk. cbn [zx_ops x_do_write].
      destruct (base_do_write_ok _ _ _ zx_laws0 (S (length u)) (Going s) t u H) as (r & E & HR); [lia|].
      rewrite E. exists (caught r, threw r). split; [reflexivity|]. cbn [fst snd].
      destruct r as [s'|s' n]; exact HR.
  Qed.
End Sized.
Lemma sized_exceptions count throws os : Forall op_wf os ->
  exists s l, run_catching zx_ops (zx_init count throws) os = Some (s, l) /\ length l = length os /\
    subsequence (szmk_finish (zx_s s)) (ops_text os) /\
    (~ In true throws -> szmk_finish (zx_s s) = ops_text os).
Proof.
  intros Hw.
  destruct (run_catching_ok zx_ops _ _ (zx_laws throws) os (zx_init count throws) []) as (s & l & E & HR & Hl).
  - destruct (szmk_init_R count) as (Hb & Ht). unfold zxR, zx_init, zx_text, szmk_finish; cbn [zx_s zx_o].
    split; [exact Hb|]. split; [exists []; reflexivity|]. rewrite Ht. split; [constructor|auto].
  - exact Hw.
  - cbn [app] in HR. destruct HR as (Hb & Hu & Hs & He). exists s, l. auto.
Qed.

(* the stream buffer writer *)
Lemma try_sputn_spec o file u : exists p us o' t, try_sputn o file u = (file ++ p, o', length p, t) /\ is_prefix p u /\
  o = us ++ o' /\ (Forall (fun d => snd d = false) us -> t = false).
Proof.
  destruct o as [|[k t] o]; cbn [try_sputn].
  - exists u, [], [], false. split; [reflexivity|]. split; [apply is_prefix_refl|]. auto.
  - exists (firstn k u), [(k, t)], o, t. rewrite firstn_length. split; [reflexivity|].
    split; [exists (skipn k u); symmetry; apply firstn_skipn|]. split; [reflexivity|].
    intros H; inversion H; assumption.
Qed.
Lemma ss_pre_drop a p u t : subsequence (a ++ u) t -> is_prefix p u -> subsequence (a ++ p) t.
Proof.
  intros H [r ->]. apply (ss_trans _ ((a ++ p) ++ r)); [apply ss_more, ss_refl|]. rewrite <- app_assoc; exact H.
Qed.
Section Stream.
  Variable d0 : list (nat * bool).
  Definition calm : list (nat * bool) -> Prop := Forall (fun d => snd d = false).
  Definition bxR (s : sbx) (t : list Z) : Prop :=
    let f := bx_s s in
    fw_cap f = 64%nat /\ (length (fw_buf f) <= 64)%nat /\ fw_count f <= zlen (fw_file f) /\
    subsequence (fw_file f ++ (if fw_good f then fw_buf f else [])) t /\
    (exists used, d0 = used ++ bx_o s) /\
    (calm d0 -> fw_count f = zlen (fw_file f) /\
                if fw_good f then fw_file f ++ fw_buf f = t else (length (fw_file f) < length t)%nat).
  Definition bxB (s : sbx) (t : list Z) : Prop := bxR s t /\ fw_buf (bx_s s) = [] /\ ~ calm d0.
  Lemma bx_more s t u : bxR s t -> fw_good (bx_s s) = false -> bxR s (t ++ u).
  Proof.
    intros (Hc & Hl & Hn & Hs & Hu & Hx) G. unfold bxR. rewrite G in *.
    repeat split; auto; try (apply ss_more; exact Hs); destruct (Hx H) as [H1 H2]; [exact H1|rewrite app_length; lia].
  Qed.
  Lemma calm_app a b : calm (a ++ b) -> calm a /\ calm b.
  Proof. apply Forall_app. Qed.
  Ltac bxs := unfold bxB, bxR, bx_set; cbn [bx_s bx_o fw_cap fw_buf fw_count fw_file fw_good length].
  Lemma bx_laws : xlaws bx_ops bxR bxB.
  Proof.
    constructor; cbn [bx_ops x_space x_good x_emit x_recycle x_do_write].
    - intros s t u (Hc & Hl & Hn & Hs & Hu & Hx) Hk. unfold fwr_emit.
      destruct (Nat.leb_spec (length (fw_buf (bx_s s)) + length u) (fw_cap (bx_s s))); [|lia].
      eexists; split; [reflexivity|]. bxs. rewrite app_length. split; [|split; [lia|reflexivity]].
      split; [exact Hc|]. split; [lia|]. split; [exact Hn|]. split.
      { destruct (fw_good (bx_s s)); [rewrite app_assoc; apply ss_app; [exact Hs|apply ss_refl]|apply ss_more; exact Hs]. }
      split; [exact Hu|]. intros H0; destruct (Hx H0) as [H1 H2]. split; [exact H1|].
      destruct (fw_good (bx_s s)); [rewrite app_assoc, H2; reflexivity|rewrite app_length; lia].
    - intros s t (Hc & Hl & Hn & Hs & (used & Hu) & Hx). unfold bx_recycle.
      destruct (fw_good (bx_s s)) eqn:G.
      + destruct (try_sputn_spec (bx_o s) (fw_file (bx_s s)) (fw_buf (bx_s s))) as (p & us & o' & t' & E & Hp & Ho & Ht').
        rewrite E. assert (Hpl : (length p <= length (fw_buf (bx_s s)))%nat) by (destruct Hp as [r ->]; rewrite app_length; lia).
        destruct t'; cbn [fst snd].
        * assert (Hnc : ~ calm d0).
          { intros Hcalm. rewrite Hu, Ho in Hcalm. apply calm_app in Hcalm as [_ Hcalm]. apply calm_app in Hcalm as [Hcalm _].
            discriminate (Ht' Hcalm). }
          bxs. split; [|auto]. rewrite app_nil_r, zlen_app. unfold zlen in *. repeat split; auto; try lia; try contradiction.
          -- apply (ss_pre_drop _ _ _ _ Hs Hp).
          -- exists (used ++ us). rewrite Hu, Ho, <- app_assoc; reflexivity.
        * bxs. split; [|lia]. rewrite zlen_app. unfold zlen in *. repeat split; auto; try lia.
          -- replace (if (length p =? length (fw_buf (bx_s s)))%nat then [] else []) with (@nil Z)
               by (destruct (_ =? _)%nat; reflexivity).
             rewrite app_nil_r. apply (ss_pre_drop _ _ _ _ Hs Hp).
          -- exists (used ++ us). rewrite Hu, Ho, <- app_assoc; reflexivity.
          -- destruct (Hx H) as [H1 H2]. destruct (Nat.eqb_spec (length p) (length (fw_buf (bx_s s)))) as [Ee|Ee].
             ++ rewrite (prefix_full _ _ Hp Ee), app_nil_r; exact H2.
             ++ rewrite <- H2, !app_length; lia.
      + cbn [fst snd]. bxs. split; [|lia]. repeat split; auto; try lia.
        exists used; exact Hu.
    - intros s t u H G. apply bx_more; assumption.
    - intros s t u ((Hc & Hl & Hn & Hs & Hu & Hx) & Hb & Hnc). split; [|auto]. unfold bxR.
      repeat split; auto; try contradiction. apply ss_more; exact Hs.
    - intros s t (H & _); exact H.
    - intros s t u (Hc & Hl & Hn & Hs & (used & Hu) & Hx) Hk. eexists; split; [reflexivity|].
      destruct (fw_good (bx_s s)) eqn:G.
      + destruct (try_sputn_spec (bx_o s) (fw_file (bx_s s)) (fw_buf (bx_s s))) as (p & us & o' & t' & E & Hp & Ho & Ht').
        rewrite E. assert (Hpl : (length p <= length (fw_buf (bx_s s)))%nat) by (destruct Hp as [r ->]; rewrite app_length; lia).
        destruct t'; cbn [fst snd].
        { assert (Hnc : ~ calm d0).
          { intros Hcalm. rewrite Hu, Ho in Hcalm. apply calm_app in Hcalm as [_ Hcalm]. apply calm_app in Hcalm as [Hcalm _].
            discriminate (Ht' Hcalm). }
          bxs. split; [|auto]. rewrite app_nil_r, zlen_app. unfold zlen in *. repeat split; auto; try lia; try contradiction.
          -- apply ss_more. apply (ss_pre_drop _ _ _ _ Hs Hp).
          -- exists (used ++ us). rewrite Hu, Ho, <- app_assoc; reflexivity. }
        destruct (try_sputn_spec o' (fw_file (bx_s s) ++ p) u) as (q & us2 & o2 & t2 & E2 & Hq & Ho2 & Ht2).
        rewrite E2. assert (Hql : (length q <= length u)%nat) by (destruct Hq as [r ->]; rewrite app_length; lia).
        assert (Hsub : subsequence ((fw_file (bx_s s) ++ p) ++ q) (t ++ u)).
        { apply ss_app; [apply (ss_pre_drop _ _ _ _ Hs Hp)|apply ss_prefix; exact Hq]. }
        destruct t2; cbn [fst snd].
        * assert (Hnc : ~ calm d0).
          { intros Hcalm. rewrite Hu, Ho, Ho2 in Hcalm. apply calm_app in Hcalm as [_ Hcalm]. apply calm_app in Hcalm as [_ Hcalm].
            apply calm_app in Hcalm as [Hcalm _]. discriminate (Ht2 Hcalm). }
          bxs. split; [|auto]. rewrite app_nil_r, !zlen_app. unfold zlen in *. repeat split; auto; try lia; try contradiction.
          exists ((used ++ us) ++ us2). rewrite Hu, Ho, Ho2, <- !app_assoc; reflexivity.
        * bxs. rewrite !zlen_app. unfold zlen in *. repeat split; auto; try lia.
          -- replace (if (length p + length q =? length (fw_buf (bx_s s)) + length u)%nat then [] else []) with (@nil Z)
               by (destruct (_ =? _)%nat; reflexivity).
             rewrite app_nil_r. exact Hsub.
          -- exists ((used ++ us) ++ us2). rewrite Hu, Ho, Ho2, <- !app_assoc; reflexivity.
          -- destruct (Hx H) as [H1 H2].
             destruct (Nat.eqb_spec (length p + length q) (length (fw_buf (bx_s s)) + length u)) as [Ee|Ee].
             ++ rewrite (prefix_full p _ Hp), (prefix_full q _ Hq), app_nil_r, H2 by lia. reflexivity.
             ++ rewrite <- H2, !app_length; lia.
      + cbn [fst snd]. bxs. repeat split; auto; try lia.
        * apply ss_more; exact Hs.
        * exists used; exact Hu.
        * destruct (Hx H) as [H1 H2]. rewrite app_length; lia.
  Qed.
End Stream.
Lemma stream_exceptions device os : Forall op_wf os ->
  exists s l, run_catching bx_ops (bx_init device) os = Some (s, l) /\ length l = length os /\
    subsequence (fst (bx_finish s)) (ops_text os) /\
    (forall n b, snd (bx_finish s) = Some (n, b) -> n <= zlen (fst (bx_finish s))) /\
    (Forall (fun d => snd d = false) device ->
       exists b, snd (bx_finish s) = Some (zlen (fst (bx_finish s)), b) /\
         (b = true <-> fst (bx_finish s) = ops_text os)).
Proof.
  intros Hw.
  destruct (run_catching_ok bx_ops _ _ (bx_laws device) os (bx_init device) []) as (s & l & E & HR & Hl).
  - unfold bxR, bx_init, fwr_init; cbn. repeat split; try lia; [constructor|exists []; reflexivity].
  - exact Hw.
  - cbn [app] in HR. exists s, l. split; [exact E|]. split; [exact Hl|].
    destruct HR as (Hc & Hb & Hn & Hs & (used & Hu) & Hx). unfold bx_finish.
    destruct (fw_good (bx_s s)) eqn:G.
    + destruct (try_sputn_spec (bx_o s) (fw_file (bx_s s)) (fw_buf (bx_s s))) as (p & us & o' & t' & E1 & Hp & Ho & Ht').
      rewrite E1. cbn [fst snd]. split; [apply (ss_pre_drop _ _ _ _ Hs Hp)|].
      split; [intros n b; destruct t'; [discriminate|intros [= <- <-]]; rewrite zlen_app; unfold zlen in *; lia|].
      intros Hcalm. destruct (Hx Hcalm) as [H1 H2]. rewrite Hu, Ho in Hcalm.
      apply Forall_app in Hcalm as [_ Hcalm]. apply Forall_app in Hcalm as [Hcalm _]. rewrite (Ht' Hcalm).
      eexists. split; [rewrite zlen_app, H1; reflexivity|].
      destruct (Nat.eqb_spec (length p) (length (fw_buf (bx_s s)))) as [Ee|Ee].
      * rewrite (prefix_full _ _ Hp Ee). tauto.
      * split; [discriminate|]. intros Heq; exfalso; apply Ee. rewrite <- H2 in Heq.
        apply app_inv_head in Heq. rewrite Heq; reflexivity.
    + cbn [fst snd]. rewrite app_nil_r in Hs. split; [exact Hs|]. split; [intros n b [= <- <-]; exact Hn|].
      intros Hcalm. destruct (Hx Hcalm) as [H1 H2]. exists false. rewrite H1. split; [reflexivity|].
      split; [discriminate|]. intros Heq; rewrite Heq in H2; lia.
Qed.

(* ---- C strings and arrays: the restriction is exact ---- *)
Definition poisoned (s : cstr) : Prop :=
  c_good s = false /\ c_region s = false /\ c_end s = 64%nat /\ (c_ptr s <= 64)%nat /\ c_it s = Some (false, 64%nat).
Ltac pz := unfold poisoned; cbn [c_good c_region c_end c_ptr c_it]; repeat split; auto; try lia.
Lemma poisoned_emit s u : c_region s = false -> c_end s = 64%nat -> (c_ptr s + length u <= 64)%nat ->
  exists s', cstr_emit s u = Some s' /\ c_good s' = c_good s /\ c_region s' = false /\ c_end s' = 64%nat /\
    c_ptr s' = (c_ptr s + length u)%nat /\ c_it s' = c_it s.
Proof.
  intros Hr He Hu. unfold cstr_emit, garbage_size. rewrite Hr, He.
  destruct (Nat.leb_spec (c_ptr s + length u) 64); [|lia]. eexists; split; [reflexivity|]. cbn. auto.
Qed.
Lemma poisoned_do_write s u : c_region s = false -> c_end s = 64%nat -> (c_ptr s <= 64)%nat -> (64 - c_ptr s < length u)%nat ->
  exists s', cstr_do_write s u = Some s' /\ poisoned s'.
Proof.
  intros Hr He Hp Hu. unfold cstr_do_write. rewrite He. destruct (Nat.ltb_spec (length u) (64 - c_ptr s)); [lia|].
  destruct (poisoned_emit s (firstn (64 - c_ptr s) u) Hr He) as (s1 & E1 & _); [rewrite firstn_length; lia|].
  rewrite E1; cbn [obind]. eexists; split; [reflexivity|]. rewrite Hr. unfold garbage_size; pz.
Qed.
Lemma poisoned_laws : full_laws cstr_ops (fun s _ => poisoned s).
Proof.
  constructor; cbn [cstr_ops d_space d_good d_emit d_recycle d_do_write].
  - intros s t u (G & Hr & He & Hp & Hi) Hu.
    destruct (poisoned_emit s u Hr He) as (s' & E & G' & Hr' & He' & Hp' & Hi'); [lia|].
    exists s'. split; [exact E|]. split; [pz; congruence|]. split; [lia|exact G'].
  - intros s t (G & Hr & He & Hp & Hi). unfold cstr_recycle. rewrite G. split; [pz|cbn [c_end c_ptr]; lia].
  - auto.
  - intros s t u (G & Hr & He & Hp & Hi) _ Hu. apply poisoned_do_write; auto. lia.
Qed.
Lemma cstr_run_any k n os : forall s t, cstr_R k n s t -> Forall op_wf os ->
  exists s', run cstr_ops s os = Some s' /\
    ((no_overflow_when_bad s os /\ cstr_R k n s' (t ++ ops_text os)) \/ (~ no_overflow_when_bad s os /\ poisoned s')).
Proof.
  induction os as [|o os IH]; intros s t H Hw; cbn [run no_overflow_when_bad].
  - exists s; rewrite app_nil_r; auto.
  - inversion Hw as [|? ? Ho Hos]; subst.
    assert (Hdec : (match o with OWrite u => c_good s = true \/ (length u <= c_end s - c_ptr s)%nat | _ => True end) \/
      exists u, o = OWrite u /\ c_good s = false /\ (c_end s - c_ptr s < length u)%nat).
    { destruct o; auto. destruct (c_good s); auto. destruct (Nat.le_gt_cases (length u) (c_end s - c_ptr s)); [auto|]. eauto. }
    destruct Hdec as [Hd|(u & -> & G & Hu)].
    + destruct (run_op_ok cstr_ops _ _ (cstr_laws k n) s t o H Ho) as (s1 & E1 & R1).
      { destruct o; auto. cbn [cstr_ops d_space]. tauto. }
      rewrite E1; cbn [obind]. destruct (IH s1 _ R1 Hos) as (s' & E' & HH). exists s'; split; [exact E'|].
      unfold ops_text in *; cbn [map concat]. rewrite app_assoc.
      destruct HH as [[Hn R']|[Hn P]]; [left|right]; (split; [|assumption]).
      * split; [exact Hd|]. intros s'' [= <-]; exact Hn.
      * intros [_ Hn']. apply Hn, Hn'. reflexivity.
    + destruct H as (Hn & Hk & H). rewrite G in H. destruct H as (Hr & He & Hp & _).
      cbn [run_op]. unfold write. cbn [cstr_ops d_space d_do_write].
      destruct (Nat.ltb_spec 0 (length u)); [|lia]. destruct (Nat.leb_spec (length u) (c_end s - c_ptr s)); [lia|].
      destruct (poisoned_do_write s u Hr He Hp) as (s1 & E1 & P1); [lia|]. rewrite E1; cbn [obind].
      destruct (run_ok cstr_ops _ poisoned_laws os s1 [] P1 Hos) as (s' & E' & P'). exists s'; split; [exact E'|].
      right. split; [|exact P']. intros [[|] _]; [congruence|lia].
Qed.
Lemma cstr_iff buf os : (1 <= length buf)%nat -> Forall op_wf os ->
  exists s', run cstr_ops (cstr_init buf) os = Some s' /\
    ((exists r, cstr_finish s' = Some r) <-> no_overflow_when_bad (cstr_init buf) os).
Proof.
  intros Hb Hw. destruct (cstr_run_any 1 (length buf) os _ _ (cstr_init_R buf Hb) Hw) as (s' & E & [[Hn R]|[Hn P]]).
  - exists s'; split; [exact E|]. destruct (cstr_finish_ok (length buf) s' _ Hb R) as (buf' & k & tr & F & _). split; eauto.
  - exists s'; split; [exact E|]. split; [|contradiction]. intros [r Hr]. destruct P as (G & _ & _ & _ & Hi).
    unfold cstr_finish in Hr. rewrite G, Hi in Hr. discriminate.
Qed.
Lemma arr_iff buf os : Forall op_wf os ->
  exists s', run cstr_ops (arr_init buf) os = Some s' /\
    ((exists k tr, arr_finish s' = (Some (true, k), tr)) <-> no_overflow_when_bad (arr_init buf) os).
Proof.
  intros Hw. destruct (cstr_run_any 0 (length buf) os _ _ (arr_init_R buf) Hw) as (s' & E & [[Hn R]|[Hn P]]).
  - exists s'; split; [exact E|]. destruct (arr_finish_ok (length buf) s' _ R) as (k & tr & F & _). split; eauto.
  - exists s'; split; [exact E|]. split; [|contradiction]. intros (k & tr & Hr). destruct P as (G & _ & _ & _ & Hi).
    unfold arr_finish in Hr. rewrite G, Hi in Hr. discriminate.
Qed.
