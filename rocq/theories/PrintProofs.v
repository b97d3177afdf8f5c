(* Proofs about PrintModel. *)
From Coq Require Import Permutation.
From Verif Require Import Base WidthModel WidthProofs DestModel DestProofs UtfForms CharsetModel TransSpec SbcsModel CsetModel CsetProofs Properties_Pivot
  IntSpec IntModel IntProofs PrintModel PrintSpec RoomProofs RoomCset.

(* ---- printers ---- *)
(* the two parts of prints_text at once: [ok v] says that the text v is not too long *)
Definition laws {S} (ops : dest_ops S) (R : S -> list Z -> Prop) (ok : list Z -> Prop) : Prop :=
  full_laws ops R /\ (forall v, ok v) \/ room_laws ops R ok.
Definition prints_both (p : printer) (t : list Z) : Prop :=
  forall S (ops : dest_ops S) R ok, laws ops R ok -> forall s u, R s u -> ok (u ++ t) -> exists s', p S ops s = Some s' /\ R s' (u ++ t).
Lemma prints_by p t : prints_both p t -> prints_text p t.
Proof.
  intros H. split.
  - intros S ops R L s u HR. apply (H S ops R (fun _ => True)); [left; auto|exact HR|exact I].
  - intros S ops R L s u HR HG Hs.
    set (R' := fun s' v => R s' v /\ d_good ops s' = true /\ (length v + d_space ops s' = length u + d_space ops s)%nat).
    destruct (H S ops R' (fun v => (length v <= length u + d_space ops s)%nat)) with (s := s) (u := u) as (s' & E & H1 & H2 & H3).
    + right. constructor.
      * intros s0 t0 (_ & G & _). exact G.
      * intros s0 t0 v (_ & _ & E). rewrite app_length. lia.
      * intros s0 t0 v (A & G & E) Hl. destruct (L s0 t0 v A Hl) as (s' & E' & A' & Sp & G'). exists s'. split; [exact E'|]. split; [|exact Sp].
        split; [exact A'|]. split; [congruence|]. rewrite app_length. lia.
    + repeat split; auto.
    + rewrite app_length. lia.
    + exists s'. split; [exact E|]. split; [exact H1|]. rewrite app_length in H3. split; [lia|exact H2].
Qed.
Lemma prints_use p t : prints_text p t -> prints_both p t.
Proof.
  intros [H1 H2] S ops R ok [[L K]|L] s u HR Hk; [exact (H1 S ops R L s u HR)|].
  destruct (H2 S ops R) with (s := s) (u := u) as (s' & E & H' & _); eauto using (room_good _ _ _ L), (room_space _ _ _ L).
  intros s0 t0 v A Hl. destruct (room_keeps _ _ _ L s0 t0 v A Hl) as (s' & E & A' & Sp). exists s'. split; [exact E|]. split; [exact A'|]. split; [exact Sp|].
  rewrite (room_good _ _ _ L _ _ A'), (room_good _ _ _ L _ _ A). reflexivity.
Qed.
Lemma laws_cut {S} (ops : dest_ops S) R ok s t u v : laws ops R ok -> R s t -> ok (t ++ u ++ v) -> ok (t ++ u).
Proof. intros [[_ K]|L] H HK; [apply K|exact (room_cut ops R ok L s t u v H HK)]. Qed.
Lemma laws_bad {S} (ops : dest_ops S) R ok s t u : laws ops R ok -> R s t -> d_good ops s = false -> R s (t ++ u).
Proof. intros [[L _]|L] H G; [exact (law_bad _ _ _ L s t u H G)|]. rewrite (room_good _ _ _ L s t H) in G. discriminate. Qed.
Lemma laws_write {S} (ops : dest_ops S) R ok s t u : laws ops R ok -> R s t -> ok (t ++ u) -> exists s', write ops s u = Some s' /\ R s' (t ++ u).
Proof. intros [[L _]|L] H K; [apply (write_ok ops R _ L); auto|exact (room_write ops R ok L s t u H K)]. Qed.

Lemma prints_nothing : prints_text p_nothing [].
Proof. apply prints_by. intros S ops R ok L s u H K. exists s. rewrite app_nil_r. split; [reflexivity|exact H]. Qed.
Lemma laws_op {S} (ops : dest_ops S) R ok s t o : laws ops R ok -> op_wf o -> tight o -> R s t -> ok (t ++ op_text o) -> exists s', run_op ops s o = Some s' /\ R s' (t ++ op_text o).
Proof.
  intros [[L _]|L] HW HT H K.
  - apply (run_op_ok ops R _ L); [exact H|exact HW|]. destruct o; auto.
  - apply (room_op ops R ok L s t o []); rewrite ?app_nil_r; auto; destruct o; cbn [tight need_of op_text op_wf modest] in *; auto; lia.
Qed.
Lemma prints_op o : op_wf o -> tight o -> prints_text (p_op o) (op_text o).
Proof. intros HW HT. apply prints_by. intros S ops R ok L s u H K. exact (laws_op ops R ok s u o L HW HT H K). Qed.
Lemma prints_ops os : Forall op_wf os -> frugal os -> prints_text (p_ops os) (ops_text os).
Proof.
  intros HW HF. apply prints_by. intros S ops R ok [[L _]|L] s u H K.
  - apply (run_ok ops R L); assumption.
  - apply (room_run ops R ok L); try assumption. apply wf_modest; assumption.
Qed.
Lemma prints_seq p q t v : prints_text p t -> prints_text q v -> prints_text (p_seq p q) (t ++ v).
Proof.
  intros HP HQ. apply prints_by. intros S ops R ok L s u H K.
  destruct (prints_use _ _ HP S ops R ok L s u H (laws_cut _ _ _ _ _ _ _ L H K)) as (s1 & E1 & H1).
  rewrite app_assoc in K. destruct (prints_use _ _ HQ S ops R ok L s1 _ H1 K) as (s2 & E2 & H2).
  exists s2. unfold p_seq. rewrite E1. cbn [obind]. rewrite app_assoc. split; assumption.
Qed.
Lemma prints_copy same str : prints_text (p_copy same str) str.
Proof.
  apply prints_by. intros S ops R ok L s u H K. unfold p_copy. destruct same.
  - apply (laws_write ops R ok); auto.
  - destruct L as [[L _]|L]; [apply (interchar_copy_ok ops R _ L)|apply (room_copy ops R ok L)]; auto. lia.
Qed.
Lemma prints_transcode a b src cps out : is_cset a -> is_cset b -> unit_text a src -> text_in a false src cps ->
  Forall2 (encoded_in b) cps out -> prints_text (p_transcode a b src) (concat out).
Proof.
  intros HA HB HU HT HE. apply prints_by. intros S ops R ok [[L _]|L] s u H K; unfold p_transcode.
  - destruct (C28_transcode_into S ops R _ L a b flags_none src cps out s u HA HB HU ltac:(split; reflexivity) HT HE H) as (s' & r & E & H' & _).
    exists s'. rewrite E. split; [reflexivity|exact H'].
  - destruct (transcode_into_room ops R ok L a b flags_none src cps out s u HA HB HU ltac:(split; reflexivity) HT HE H K) as (s' & r & E & H').
    exists s'. rewrite E. split; [reflexivity|exact H'].
Qed.
Lemma fill_tight cs n c : charset_ok cs -> 0 <= c < 2 ^ 32 -> tight (cs_fill cs n c).
Proof. intros K Hc. pose proof (ok_fill_only cs K n c Hc). destruct (cs_fill cs n c); cbn [tight] in *; auto; contradiction. Qed.
Lemma prints_fill cs n c : charset_ok cs -> 0 <= c < 2 ^ 32 -> prints_text (p_fill cs n c) (fill_text (cs_encode cs c) n).
Proof.
  intros K Hc. unfold p_fill. destruct (Z.ltb_spec 0 n).
  - destruct (ok_fill cs K n c ltac:(lia) Hc) as [A B]. unfold fill_text. rewrite <- B. apply prints_op; [exact A|apply fill_tight; assumption].
  - replace (fill_text (cs_encode cs c) n) with (@nil Z) by (unfold fill_text; replace (Z.to_nat n) with O by lia; reflexivity).
    apply prints_nothing.
Qed.
Lemma prints_fill_op cs n c : charset_ok cs -> 0 <= n -> 0 <= c < 2 ^ 32 -> prints_text (p_op (cs_fill cs n c)) (fill_text (cs_encode cs c) n).
Proof. intros K Hn Hc. destruct (ok_fill cs K n c Hn Hc) as [A B]. unfold fill_text. rewrite <- B. apply prints_op; [exact A|apply fill_tight; assumption]. Qed.
Lemma prints_eq p t v : prints_text p t -> t = v -> prints_text p v.
Proof. intros H <-. exact H. Qed.

Lemma call_printers_ok ps ts : Forall2 prints_text ps ts -> prints_text (call_printers ps) (concat ts).
Proof.
  intros HF0. apply prints_by. induction HF0 as [|p t ps ts HP HF IH]; intros S ops R ok L s u H K; cbn [call_printers concat] in *.
  - exists s. rewrite app_nil_r. auto.
  - destruct (prints_use _ _ HP S ops R ok L s u H (laws_cut _ _ _ _ _ _ _ L H K)) as (s1 & E1 & H1). rewrite E1. cbn [obind]. rewrite app_assoc in K |- *.
    destruct (d_good ops s1) eqn:G.
    + apply (IH S ops R ok L); assumption.
    + exists s1. split; [reflexivity|]. apply (laws_bad ops R ok); assumption.
Qed.

(* ---- width arithmetic ---- *)
Lemma w_add_ok x y : u_min <= x + y <= u_max -> w_add x y = Some (x + y).
Proof. unfold w_add, u_min, u_max. intros H. apply chk_ok. lia. Qed.
Lemma w_sub_ok x y : u_min <= x - y <= u_max -> w_sub x y = Some (x - y).
Proof. unfold w_sub, u_min, u_max. intros H. apply chk_ok. lia. Qed.

Lemma add_size_ok n p : 0 <= n -> match p_size p with None => True | Some z => 0 <= z < 2 ^ 64 end ->
  exists p', add_size n p = Some p' /\ p_size p' = option_map (fun z => (z + n) mod 2 ^ 64) (p_size p) /\ p_width p' = p_width p /\
    match p_size p' with None => True | Some z => 0 <= z < 2 ^ 64 end.
Proof.
  intros Hn HP. unfold add_size. destruct p as [[z|] w]; cbn [p_size p_width option_map].
  - replace (0 <=? n) with true by lia. eexists. split; [reflexivity|]. cbn [p_size p_width option_map]. split; [reflexivity|]. split; [reflexivity|].
    apply Z.mod_pos_bound. lia.
  - eexists. split; [reflexivity|]. cbn [p_size p_width option_map]. auto.
Qed.
Lemma add_width_ok w p : match p_width p with None => True | Some (l, x) => u_min <= x + w <= u_max end ->
  exists p', add_width w p = Some p' /\ p_size p' = p_size p /\
    p_width p' = match p_width p with None => None | Some (l, x) => Some (l, x + w) end.
Proof.
  intros H. unfold add_width. destruct p as [z [[l x]|]]; cbn [p_size p_width] in *.
  - rewrite w_add_ok by assumption. cbn [obind]. eexists. split; [reflexivity|]. auto.
  - eexists. split; [reflexivity|]. auto.
Qed.

(* ---- lists of arguments ---- *)
Lemma room_app limit x d ds x' : 0 <= d_width d <= d_peak d -> 0 <= d_need d -> 0 <= x <= u_max -> is_width limit ->
  room limit x (join_desc (d :: ds)) -> Forall (fun d => 0 <= d_width d <= d_peak d /\ 0 <= d_need d) ds ->
  room limit x d /\
  (x <= x' <= x + d_width d -> x' <= Z.max limit x + d_need d -> 0 <= x' <= u_max /\ room limit x' (join_desc ds)).
Proof.
  intros H1 H2 Hx HL HR HF. unfold room, is_width in *. cbn [join_desc d_peak d_need map] in *.
  change (sumZ (d_peak d :: map d_peak ds)) with (d_peak d + sumZ (map d_peak ds)) in HR.
  change (sumZ (d_need d :: map d_need ds)) with (d_need d + sumZ (map d_need ds)) in HR.
  assert (0 <= sumZ (map d_peak ds) /\ 0 <= sumZ (map d_need ds)).
  { clear - HF. induction HF as [|e ds H HF IH]; [cbn; lia|]. cbn [map sumZ fold_right]. unfold sumZ in *. lia. }
  split; [lia|]. intros. lia.
Qed.
Lemma join_nonneg ds : Forall (fun d => 0 <= d_width d <= d_peak d /\ 0 <= d_need d) ds ->
  0 <= d_width (join_desc ds) <= d_peak (join_desc ds) /\ 0 <= d_need (join_desc ds).
Proof.
  unfold join_desc. cbn [d_width d_peak d_need]. induction 1 as [|e ds H HF IH]; [cbn; lia|]. cbn [map sumZ fold_right]. unfold sumZ in *. lia.
Qed.
Lemma args_nonneg M args ds : Forall2 (arg_ok M) args ds -> Forall (fun d => 0 <= d_width d <= d_peak d /\ 0 <= d_need d) ds.
Proof. induction 1 as [|a d args ds (H1 & H2 & _) HF IH]; constructor; auto. Qed.

Lemma make_printers_ok M args ds : Forall2 (arg_ok M) args ds -> forall p, pre_ok M p (join_desc ds) ->
  exists p' ps, make_printers args p = Some (p', ps) /\ Forall2 prints_text ps (map d_text ds) /\ added p (join_desc ds) p'.
Proof.
  induction 1 as [|a d args ds HA HF IH]; intros p HP.
  - exists p, []. split; [reflexivity|]. split; [constructor|]. destruct HP as [HZ HW]. split.
    + cbn. destruct (p_size p) as [z|]; [|reflexivity]. cbn. rewrite Z.add_0_r, Z.mod_small by exact HZ. reflexivity.
    + destruct (p_width p) as [[l x]|]; [|exact I]. cbn. lia.
  - pose proof (args_nonneg _ _ _ HF) as HN. destruct HA as (H1 & H2 & HA).
    assert (pre_ok M p d) as HPd.
    { destruct HP as [HZ HW]. split; [exact HZ|]. destruct (p_width p) as [[l x]|]; [|exact I]. destruct HW as (L1 & L2 & L3 & L4).
      split; [exact L1|]. split; [exact L2|]. split; [exact L3|]. eapply room_app; eauto. }
    destruct (HA p HPd) as (p1 & pr & E1 & T1 & A1). destruct A1 as [A1 A2].
    assert (pre_ok M p1 (join_desc ds)) as HP1.
    { destruct HP as [HZ HW]. split.
      - rewrite A1. destruct (p_size p); [|exact I]. apply Z.mod_pos_bound. lia.
      - destruct (p_width p) as [[l x]|], (p_width p1) as [[l' x']|]; try contradiction; [|exact I].
        destruct A2 as (-> & B1 & B2 & B3). destruct HW as (L1 & L2 & L3 & L4).
        destruct (room_app l x d ds x' H1 H2 L3 L1 L4 HN) as [_ G]. destruct (G B1 B3). auto. }
    destruct (IH p1 HP1) as (p2 & ps & E2 & T2 & A3). exists p2, (pr :: ps). cbn [make_printers]. rewrite E1. cbn [obind fst snd]. rewrite E2.
    split; [reflexivity|]. split; [constructor; assumption|]. destruct A3 as [A3 A4]. split.
    + rewrite A3, A1. destruct (p_size p) as [z|]; [|reflexivity]. cbn [option_map]. f_equal. cbn [join_desc d_text map concat]. rewrite zlen_app.
      rewrite Zplus_mod_idemp_l. f_equal. lia.
    + destruct (p_width p) as [[l x]|], (p_width p1) as [[l1 x1]|], (p_width p2) as [[l2 x2]|]; try contradiction; try exact I.
      destruct A2 as (-> & B1 & B2 & B3), A4 as (-> & C1 & C2 & C3). cbn [join_desc d_width d_need map] in *.
      change (sumZ (d_width d :: map d_width ds)) with (d_width d + sumZ (map d_width ds)).
      change (sumZ (d_need d :: map d_need ds)) with (d_need d + sumZ (map d_need ds)).
      pose proof (join_nonneg ds HN). cbn [join_desc d_width d_need d_peak] in *. lia.
Qed.

Lemma measure_only_width_ok M args ds : Forall2 (arg_ok M) args ds -> forall p, pre_ok M p (join_desc ds) -> p_size p = None -> has_remaining_width p = true ->
  exists p', measure_only_width args p = Some p' /\ added p (join_desc ds) p'.
Proof.
  induction 1 as [|a d args ds HA HF IH]; intros p HP HS HR.
  - exists p. split; [reflexivity|]. split.
    + rewrite HS. reflexivity.
    + destruct (p_width p) as [[l x]|]; [|exact I]. cbn. lia.
  - pose proof (args_nonneg _ _ _ HF) as HN. destruct HA as (H1 & H2 & HA). pose proof (join_nonneg ds HN) as HJ.
    assert (pre_ok M p d) as HPd.
    { destruct HP as [HZ HW]. split; [exact HZ|]. destruct (p_width p) as [[l x]|]; [|exact I]. destruct HW as (L1 & L2 & L3 & L4).
      split; [exact L1|]. split; [exact L2|]. split; [exact L3|]. eapply room_app; eauto. }
    destruct (HA p HPd) as (p1 & pr & E1 & T1 & A1). destruct A1 as [A1 A2]. cbn [measure_only_width]. rewrite E1. cbn [obind fst].
    rewrite HS in A1. cbn in A1.
    assert (pre_ok M p1 (join_desc ds)) as HP1.
    { destruct HP as [HZ HW]. split.
      - rewrite A1. exact I.
      - destruct (p_width p) as [[l x]|], (p_width p1) as [[l' x']|]; try contradiction; [|exact I].
        destruct A2 as (-> & B1 & B2 & B3). destruct HW as (L1 & L2 & L3 & L4).
        destruct (room_app l x d ds x' H1 H2 L3 L1 L4 HN) as [_ G]. destruct (G B1 B3). auto. }
    destruct (p_width p) as [[l x]|] eqn:EW; [|unfold has_remaining_width in HR; rewrite EW in HR; discriminate].
    destruct (p_width p1) as [[l1 x1]|] eqn:EW1; [|contradiction]. destruct A2 as (-> & B1 & B2 & B3).
    destruct (has_remaining_width p1) eqn:HR1.
    + destruct (IH p1 HP1 A1 HR1) as (p2 & E2 & A3 & A4). exists p2. split; [exact E2|]. split.
      * rewrite HS, A3, A1. reflexivity.
      * rewrite EW, EW1 in *. destruct (p_width p2) as [[l2 x2]|]; [|contradiction]. destruct A4 as (-> & C1 & C2 & C3).
        cbn [join_desc d_width d_need d_peak map] in *.
        change (sumZ (d_width d :: map d_width ds)) with (d_width d + sumZ (map d_width ds)).
        change (sumZ (d_need d :: map d_need ds)) with (d_need d + sumZ (map d_need ds)). lia.
    + exists p1. split; [reflexivity|]. split; [rewrite HS, A1; reflexivity|]. rewrite EW, EW1.
      unfold has_remaining_width in HR1. rewrite EW1 in HR1. apply Z.ltb_ge in HR1.
      cbn [join_desc d_width d_need d_peak map] in *.
      change (sumZ (d_width d :: map d_width ds)) with (d_width d + sumZ (map d_width ds)).
      change (sumZ (d_need d :: map d_need ds)) with (d_need d + sumZ (map d_need ds)). lia.
Qed.

Lemma measure_ok M args ds : Forall2 (arg_ok M) args ds -> forall p, pre_ok M p (join_desc ds) ->
  exists p', measure args p = Some p' /\ added p (join_desc ds) p'.
Proof.
  intros H p HP. unfold measure. destruct (p_size p) as [z|] eqn:ES.
  - destruct (make_printers_ok M args ds H p HP) as (p' & ps & E & _ & A). rewrite E. cbn [obind fst]. eauto.
  - destruct (p_width p) as [[l x]|] eqn:EW.
    + destruct (has_remaining_width p) eqn:HR.
      * apply (measure_only_width_ok M); auto.
      * exists p. split; [reflexivity|]. split; [rewrite ES; reflexivity|]. rewrite EW. unfold has_remaining_width in HR. rewrite EW in HR.
        apply Z.ltb_ge in HR. pose proof (join_nonneg ds (args_nonneg _ _ _ H)). lia.
    + exists p. split; [reflexivity|]. split; [rewrite ES; reflexivity|]. rewrite EW. exact I.
Qed.
Lemma sumZ_perm l l' : Permutation l l' -> sumZ l = sumZ l'.
Proof. unfold sumZ. induction 1; cbn [fold_right]; lia. Qed.
Lemma concat_len_perm (l l' : list (list Z)) : Permutation l l' -> zlen (concat l) = zlen (concat l').
Proof. induction 1; cbn [concat]; rewrite ?zlen_app; lia. Qed.
Lemma join_desc_perm ds ds' : Permutation ds ds' ->
  zlen (d_text (join_desc ds)) = zlen (d_text (join_desc ds')) /\ d_width (join_desc ds) = d_width (join_desc ds') /\
  d_peak (join_desc ds) = d_peak (join_desc ds') /\ d_need (join_desc ds) = d_need (join_desc ds').
Proof.
  intros H. unfold join_desc. cbn [d_text d_width d_peak d_need]. split; [apply concat_len_perm, Permutation_map, H|].
  split; [apply sumZ_perm, Permutation_map, H|]. split; apply sumZ_perm, Permutation_map, H.
Qed.
Lemma Forall2_perm {A B} (P : A -> B -> Prop) l m l' : Forall2 P l m -> Permutation l l' -> exists m', Permutation m m' /\ Forall2 P l' m'.
Proof.
  intros H HP. revert m H. induction HP as [|x l l' HP IH|x y l|l l' l'' H1 IH1 H2 IH2]; intros m H.
  - inversion H; subst. exists []. auto.
  - inversion H; subst. destruct (IH _ ltac:(eassumption)) as (m' & P1 & P2). eexists (_ :: m'). split; [apply perm_skip, P1|]. constructor; assumption.
  - inversion H as [|? ? ? ? ? H3]; subst. inversion H3; subst. eexists (_ :: _ :: _). split; [apply perm_swap|]. repeat constructor; assumption.
  - destruct (IH1 m H) as (m1 & P1 & P2). destruct (IH2 m1 P2) as (m2 & P3 & P4). exists m2. split; [eapply Permutation_trans; eauto|exact P4].
Qed.
(* whatever order the arguments are measured in *)
Lemma measure_perm M args ds order : Forall2 (arg_ok M) args ds -> Permutation args order -> forall p, pre_ok M p (join_desc ds) ->
  exists p', measure order p = Some p' /\ added p (join_desc ds) p'.
Proof.
  intros H HP p HO. destruct (Forall2_perm _ _ _ _ H HP) as (ds' & P1 & P2). destruct (join_desc_perm _ _ P1) as (Q1 & Q2 & Q3 & Q4).
  destruct (measure_ok M order ds' P2 p) as (p' & E & A1 & A2).
  - destruct HO as [O1 O2]. split; [exact O1|]. destruct (p_width p) as [[l x]|]; [|exact I]. unfold room in *. rewrite <- Q3, <- Q4. exact O2.
  - exists p'. split; [exact E|]. split; [rewrite A1, Q1; reflexivity|]. rewrite Q2, Q4. exact A2.
Qed.

(* ---- the accumulators read back ---- *)
Lemma added_accumulated p d p' limit x : p_width p = Some (limit, x) -> is_width limit -> 0 <= x <= u_max -> 0 <= d_width d -> added p d p' -> u_min <= limit ->
  accumulated_width p' = Z.min limit (x + d_width d) /\
  (match p_width p' with Some (_, x') => x' <= u_max | None => True end -> remaining_width p' = Some (Z.max 0 (limit - (x + d_width d)))) /\
  has_remaining_width p' = (x + d_width d <? limit).
Proof.
  intros EW HL Hx HD [_ A] _. rewrite EW in A. unfold accumulated_width, remaining_width, has_remaining_width.
  destruct (p_width p') as [[l' x']|]; [|contradiction]. destruct A as (-> & B1 & B2 & B3). unfold is_width in *.
  split; [destruct (Z.leb_spec x' limit); lia|]. split.
  - intros Hm. destruct (Z.leb_spec x' limit).
    + rewrite w_sub_ok by (unfold u_min, u_max in *; lia). f_equal. lia.
    + f_equal. lia.
  - destruct (Z.ltb_spec x' limit), (Z.ltb_spec (x + d_width d) limit); lia || reflexivity.
Qed.


(* ---- rounding ---- *)
Lemma w_round_ok x : 0 <= x <= u_max -> w_round x = (x + 32767) / 65536.
Proof.
  intros H. destruct (round_ok x) as [A B]; [unfold is_width, u_min, u_max in *; lia|]. unfold scaled in *. set (r := w_round x) in *.
  apply Z.div_unique_pos with (x + 32767 - 65536 * r); lia.
Qed.
Lemma missing_ok want have : is_width want -> 0 <= have -> have < want -> w_round (want - have) = missing want have.
Proof.
  intros HW Hh Hl. unfold is_width in HW. rewrite w_round_ok by lia. unfold missing. rewrite Z.max_r; [reflexivity|]. apply Z.div_pos; lia.
Qed.
Lemma missing_none want have : want <= have -> missing want have = 0.
Proof. intros H. unfold missing. rewrite Z.max_l; [reflexivity|]. apply Z.lt_succ_r, Z.div_lt_upper_bound; lia. Qed.
Lemma missing_bounds want have : 0 <= missing want have /\ 65536 * missing want have <= Z.max 0 (want - have + 32767).
Proof. unfold missing. pose proof (Z.mul_div_le (want - have + 32767) 65536 ltac:(lia)). lia. Qed.
Lemma w_of_signed_small n : 0 <= n <= 32767 -> w_of_signed n = 65536 * n.
Proof. intros H. rewrite of_signed. unfold WidthProofs.clamp, scaled, u_max, u_min. lia. Qed.
