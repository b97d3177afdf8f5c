(* distribute, and the constructors of digits_grouping. *)
From Verif Require Import Base GroupModel GroupSpec GroupProofs UtfBits.

(* ---- the packed stack of groups ---- *)
Fixpoint rpk (hs : list Z) : Z := match hs with [] => 0 | h :: t => 32 * rpk t + h end.
Lemma rpk_bound hs : groups_ok hs -> 0 <= rpk hs < 32 ^ Z.of_nat (length hs).
Proof.
  induction 1 as [|h t Hh Ht IH]; cbn [rpk length]; [cbn; lia|].
  rewrite Nat2Z.inj_succ, Z.pow_succ_r by lia. lia.
Qed.
Lemma rpk_pos hs : groups_ok hs -> hs <> [] -> 32 ^ (Z.of_nat (length hs) - 1) <= rpk hs.
Proof.
  induction 1 as [|h t Hh Ht IH]; intros Hn; [congruence|]. cbn [rpk length].
  destruct t as [|h' t]; [cbn; lia|]. specialize (IH ltac:(discriminate)).
  rewrite Nat2Z.inj_succ. replace (Z.succ (Z.of_nat (length (h' :: t))) - 1) with (Z.succ (Z.of_nat (length (h' :: t)) - 1)) by lia.
  rewrite Z.pow_succ_r by (cbn [length]; lia). lia.
Qed.
Lemma push_rpk hs g : groups_ok hs -> (length hs <= 5)%nat -> 1 <= g <= 31 ->
  Z.lor (to_u 32 (Z.shiftl (rpk hs) grp_bits)) g = rpk (g :: hs).
Proof.
  intros Hh Hl Hg. pose proof (rpk_bound hs Hh) as Hb.
  assert (Hp : 32 ^ Z.of_nat (length hs) <= 32 ^ 5) by (apply Z.pow_le_mono_r; lia).
  change (32 ^ 5) with 33554432 in Hp. unfold grp_bits.
  rewrite Z.shiftl_mul_pow2 by lia. rewrite to_u_id by (change (2 ^ 5) with 32; change (2 ^ 32) with 4294967296; lia).
  rewrite lor_mul by (change (2 ^ 5) with 32; lia). cbn [rpk]. change (2 ^ 5) with 32. lia.
Qed.
Lemma highest_rpk h t : groups_ok (h :: t) -> rdg_highest (rpk (h :: t)) = h.
Proof.
  intros H; inversion H; subst. unfold rdg_highest. cbn [rpk]. pose proof (rpk_bound t H3).
  rewrite land31 by lia. lia.
Qed.
Lemma pop_rpk h t : groups_ok (h :: t) -> rdg_pop_high (rpk (h :: t)) = rpk t.
Proof. intros H; inversion H; subst. unfold rdg_pop_high. rewrite shr5. cbn [rpk]. lia. Qed.
Lemma empty_rpk hs : groups_ok hs -> rdg_empty (rpk hs) = match hs with [] => true | _ => false end.
Proof.
  intros H. destruct hs as [|h t]; [reflexivity|]. inversion H; subst. unfold rdg_empty; cbn [rpk].
  pose proof (rpk_bound t H3). lia.
Qed.

(* ---- text cut in groups ---- *)
Fixpoint chunks_tail (sep : list Z) (sizes : list Z) (ds : list Z) : list Z :=
  match sizes with
  | [] => []
  | s :: ss => sep ++ firstn (Z.to_nat s) ds ++ chunks_tail sep ss (skipn (Z.to_nat s) ds)
  end.
Definition chunks (sep : list Z) (sizes : list Z) (ds : list Z) : list Z :=
  match sizes with
  | [] => []
  | s :: ss => firstn (Z.to_nat s) ds ++ chunks_tail sep ss (skipn (Z.to_nat s) ds)
  end.
Fixpoint zsum (l : list Z) : Z := match l with [] => 0 | x :: t => x + zsum t end.
Lemma zsum_app a b : zsum (a ++ b) = zsum a + zsum b.
Proof. induction a; cbn [zsum app] in *; lia. Qed.
Definition sizes_pos (l : list Z) : Prop := Forall (fun s => 1 <= s) l.
Lemma zsum_nonneg l : sizes_pos l -> 0 <= zsum l.
Proof. induction 1; cbn [zsum] in *; lia. Qed.

Lemma chunks_tail_snoc sep g b : forall ss a, sizes_pos ss -> zlen a = zsum ss -> zlen b = g ->
  chunks_tail sep (ss ++ [g]) (a ++ b) = chunks_tail sep ss a ++ sep ++ b.
Proof.
  induction ss as [|s ss IH]; intros a Hp Ha Hb; cbn [app chunks_tail].
  - destruct a; [|rewrite zlen_cons in Ha; pose proof (zlen_nonneg a); cbn [zsum] in Ha; lia]. cbn [app].
    rewrite firstn_all2 by (unfold zlen in Hb; lia). rewrite app_nil_r. reflexivity.
  - inversion Hp; subst. cbn [zsum] in Ha.
    pose proof (zsum_nonneg ss H2) as Hs.
    rewrite firstn_app, skipn_app.
    replace (Z.to_nat s - length a)%nat with 0%nat by (unfold zlen in Ha; lia).
    cbn [firstn skipn]. rewrite app_nil_r, IH; auto.
    + rewrite !app_assoc. reflexivity.
    + unfold zlen in *. rewrite skipn_length. lia.
Qed.
Lemma chunks_snoc sep ss g a b : ss <> [] -> sizes_pos ss -> zlen a = zsum ss -> zlen b = g ->
  chunks sep (ss ++ [g]) (a ++ b) = chunks sep ss a ++ sep ++ b.
Proof.
  intros Hn Hp Ha Hb. destruct ss as [|s ss]; [congruence|]. cbn [app chunks].
  inversion Hp; subst. cbn [zsum] in Ha.
  pose proof (zsum_nonneg ss H2) as Hs.
  rewrite firstn_app, skipn_app.
  replace (Z.to_nat s - length a)%nat with 0%nat by (unfold zlen in Ha; lia).
  cbn [firstn skipn]. rewrite app_nil_r, chunks_tail_snoc; auto.
  - rewrite !app_assoc. reflexivity.
  - unfold zlen in *. rewrite skipn_length. lia.
Qed.

(* [cut B sizes]: grouping n = zsum sizes digits at the boundaries B cuts them in
   groups of these sizes, most significant first *)
Definition cut (B : Z -> bool) (sizes : list Z) : Prop :=
  sizes <> [] /\ sizes_pos sizes /\
  forall sep ds, zlen ds = zsum sizes -> grouped B sep ds = chunks sep sizes ds.

Lemma cut_one B n : 1 <= n -> (forall i, 0 < i < n -> B i = false) -> cut B [n].
Proof.
  intros Hn HB. split; [discriminate|]. split; [constructor; [lia|constructor]|].
  intros sep ds Hd. cbn [zsum] in Hd. rewrite grouped_none by (intros; apply HB; lia).
  cbn [chunks chunks_tail]. rewrite app_nil_r, firstn_all2 by (unfold zlen in Hd; lia). reflexivity.
Qed.
Lemma cut_snoc B B' sizes g : 1 <= g -> cut B' sizes ->
  (forall i, 0 < i < g -> B i = false) -> B g = true -> (forall i, 0 < i -> B (g + i) = B' i) ->
  cut B (sizes ++ [g]).
Proof.
  intros Hg (Hn & Hp & Hc) H0 H1 H2. split; [destruct sizes; discriminate|].
  split; [apply Forall_app; split; [assumption|constructor; [lia|constructor]]|].
  intros sep ds Hd. rewrite zsum_app in Hd. cbn [zsum] in Hd.
  assert (Hs : 1 <= zsum sizes).
  { destruct sizes as [|s ss]; [congruence|]. inversion Hp; subst. cbn [zsum]. pose proof (zsum_nonneg ss H5). lia. }
  set (k := (length ds - Z.to_nat g)%nat).
  assert (Hk : (length (firstn k ds) = k /\ length (skipn k ds) = Z.to_nat g)%nat).
  { rewrite firstn_length, skipn_length. unfold zlen in Hd. lia. }
  rewrite <- (firstn_skipn k ds) at 1 2.
  assert (Hb : zlen (skipn k ds) = g) by (unfold zlen; lia).
  assert (Ha : zlen (firstn k ds) = zsum sizes) by (unfold zlen in *; lia).
  rewrite (grouped_group B B').
  - rewrite chunks_snoc by assumption. rewrite Hc by assumption. reflexivity.
  - intros E. rewrite E in Ha. cbn in Ha. lia.
  - lia.
  - intros; apply H0; lia.
  - rewrite Hb; exact H1.
  - rewrite Hb; exact H2.
Qed.

(* the sizes a digits_distribution stands for, most significant first *)
Definition dist_sizes (d : distribution) (low : list Z) : list Z :=
  dist_highest d ::
  (if dist_middle d =? 0 then low else repeat (hd 0 low) (Z.to_nat (dist_middle d)) ++ tl low).

Lemma repeat_snoc {A} (x : A) n : repeat x (S n) = repeat x n ++ [x].
Proof. induction n; [reflexivity|]. cbn [repeat app] in *. f_equal. exact IHn. Qed.

Lemma cut_repeat g n : 1 <= g -> 1 <= n ->
  cut (boundary [g] true) ((1 + (n - 1) mod g) :: repeat g (Z.to_nat ((n - 1) / g))).
Proof.
  intros Hg. assert (Hn0 : forall k, n = Z.of_nat k -> 1 <= n -> cut (boundary [g] true) ((1 + (n - 1) mod g) :: repeat g (Z.to_nat ((n - 1) / g)))).
  2: { intros; apply (Hn0 (Z.to_nat n)); lia. }
  intros k. revert n. induction k as [k IH] using lt_wf_ind. intros n Hk Hn.
  destruct (Z.le_gt_cases n g) as [Hle|Hgt].
  - rewrite Z.mod_small, Z.div_small by lia. replace (1 + (n - 1)) with n by lia.
    apply cut_one; [lia|]. intros i Hi. cbn [boundary]. rewrite Z.mod_small by lia. lia.
  - specialize (IH (Z.to_nat (n - g)) ltac:(lia) (n - g) ltac:(lia) ltac:(lia)).
    replace (n - 1) with ((n - g - 1) + 1 * g) by lia. rewrite Z.mod_add, Z.div_add by lia.
    assert (0 <= (n - g - 1) / g) by (apply Z.div_pos; lia).
    replace (Z.to_nat ((n - g - 1) / g + 1)) with (S (Z.to_nat ((n - g - 1) / g))) by lia.
    rewrite repeat_snoc. rewrite app_comm_cons. apply (cut_snoc _ (boundary [g] true)); auto.
    + intros i Hi. cbn [boundary]. rewrite Z.mod_small by lia. lia.
    + cbn [boundary]. rewrite Z.mod_same by lia. lia.
    + intros i Hi. cbn [boundary]. replace (g + i) with (i + 1 * g) by lia. rewrite Z.mod_add by lia. f_equal; lia.
Qed.

Lemma distribute_loop_ok rep : forall R g fuel hs n, groups_ok (g :: R) -> groups_ok hs ->
  (length hs + length (g :: R) <= 6)%nat -> (length R < fuel)%nat -> 1 <= n ->
  exists d low new, distribute_loop fuel (pack (g :: R) rep) (rpk hs) n = Some d /\
    dist_low d = rpk low /\ groups_ok low /\ (length low <= 6)%nat /\
    dist_sizes d low = new ++ hs /\ (dist_middle d <> 0 -> low <> []) /\ 0 <= dist_middle d /\
    zsum new = n /\ cut (boundary (g :: R) rep) new.
Proof.
  induction R as [|r R IH]; intros g fuel hs n Hok Hhs Hlen Hf Hn; (destruct fuel as [|fuel]; [cbn in Hf; lia|]);
    cbn [distribute_loop]; unfold git_live; rewrite ended_pack by assumption;
    rewrite current_pack, repeat_pack, ?final_pack by assumption;
    assert (Hg : 1 <= g <= 31) by (inversion Hok; assumption);
    replace ((0 <? g) && (g <=? grp_max)) with true by (unfold grp_max; lia); cbn [negb];
    (destruct (Z.leb_spec n g) as [Hle|Hgt];
     [exists (mk_dist (rpk hs) 0 n), hs, [n];
      (split; [reflexivity|]); (split; [reflexivity|]); (split; [assumption|]); (split; [cbn in Hlen; lia|]);
      (split; [reflexivity|]); (split; [cbn; lia|]); (split; [cbn; lia|]); (split; [cbn; lia|]);
      apply cut_one; [lia|]; intros i Hi|]).
  - destruct rep; cbn [boundary]; [rewrite Z.mod_small by lia; lia|lia].
  - unfold rdg_push_low. rewrite push_rpk by (try assumption; cbn in Hlen; lia).
    assert (Hgh : groups_ok (g :: hs)) by (constructor; assumption).
    destruct rep; cbn [negb].
    + replace (g =? 0) with false by lia.
      exists (mk_dist (rpk (g :: hs)) ((n - 1) / g) (1 + (n - 1) mod g)), (g :: hs),
        ((1 + (n - 1) mod g) :: repeat g (Z.to_nat ((n - 1) / g))).
      assert (1 <= (n - 1) / g) by (apply Z.div_le_lower_bound; lia).
      split; [reflexivity|]. split; [reflexivity|]. split; [assumption|]. split; [cbn in *; lia|].
      split.
      { unfold dist_sizes. cbn [dist_middle dist_highest hd tl]. destruct (Z.eqb_spec ((n - 1) / g) 0); [lia|]. reflexivity. }
      split; [discriminate|]. split; [cbn; lia|].
      split; [|apply cut_repeat; lia].
      assert (Hs : forall k, zsum (repeat g k) = Z.of_nat k * g) by (induction k; cbn [zsum repeat] in *; lia).
      cbn [zsum]. rewrite Hs, Z2Nat.id by lia.
      pose proof (Z.div_mod (n - 1) g). lia.
    + exists (mk_dist (rpk (g :: hs)) 0 (n - g)), (g :: hs), [n - g; g].
      split; [reflexivity|]. split; [reflexivity|]. split; [assumption|]. split; [cbn in *; lia|].
      split; [reflexivity|]. split; [cbn; lia|]. split; [cbn; lia|]. split; [cbn; lia|].
      change [n - g; g] with ([n - g] ++ [g]).
      apply (cut_snoc _ (fun _ => false)); try lia; [apply cut_one; [lia|reflexivity]| | |];
        intros; cbn [boundary]; lia.
  - rewrite boundary_cons by discriminate. destruct (Z.eqb_spec i g), (Z.ltb_spec g i); lia || reflexivity.
  - unfold rdg_push_low. rewrite push_rpk by (try assumption; cbn in Hlen; lia).
    rewrite advance_pack by assumption.
    destruct (IH r fuel (g :: hs) (n - g)) as (d & low & new & E & D1 & D2 & D3 & D4 & D5 & D6 & D7 & D8).
    { inversion Hok; assumption. } { constructor; assumption. } { cbn in *; lia. } { cbn in *; lia. } { lia. }
    exists d, low, (new ++ [g]). rewrite <- app_assoc. cbn [app].
    split; [exact E|]. do 6 (split; [assumption|]). split; [rewrite zsum_app; cbn [zsum]; lia|].
    destruct (boundary_first g (r :: R) rep ltac:(lia) ltac:(left; discriminate)) as (F0 & F1 & F2).
    apply (cut_snoc _ (boundary (r :: R) rep)); auto. lia.
Qed.

Lemma distribute_ok g gs rep n : represents g gs rep -> 1 <= n ->
  exists d low, distribute g n = Some d /\
    dist_low d = rpk low /\ groups_ok low /\ (length low <= 6)%nat /\
    (dist_middle d <> 0 -> low <> []) /\ 0 <= dist_middle d /\
    zsum (dist_sizes d low) = n /\ cut (boundary gs rep) (dist_sizes d low).
Proof.
  intros ([Hg Hl] & He & ->) Hn. unfold distribute. rewrite pack_nonzero by exact Hg.
  destruct gs as [|g gs].
  - rewrite ended_nil. exists (mk_dist 0 0 n), []. rewrite He by reflexivity.
    split; [reflexivity|]. split; [reflexivity|]. split; [constructor|]. split; [cbn; lia|].
    split; [cbn; lia|]. split; [cbn; lia|]. split; [unfold dist_sizes; cbn [dist_highest dist_middle zsum]; rewrite Z.eqb_refl; cbn [zsum]; lia|]. apply cut_one; [cbn; lia|reflexivity].
  - rewrite ended_pack by exact Hg. change 0 with (rpk []) at 1.
    destruct (distribute_loop_ok rep gs g 32 [] n) as (d & low & new & E & D1 & D2 & D3 & D4 & D5 & D6 & D7 & D8);
      [exact Hg|constructor|cbn in *; lia|cbn in *; lia|lia|].
    rewrite app_nil_r in D4. exists d, low. rewrite D4. auto 10.
Qed.

(* ---- constructors ---- *)
Lemma pack_bound gs rep : groups_ok gs -> pack gs rep < 4 * 32 ^ Z.of_nat (length gs).
Proof.
  induction 1 as [|g gs Hg H IH]; cbn [pack length]; [destruct rep; cbn; lia|].
  rewrite Nat2Z.inj_succ, Z.pow_succ_r by lia. lia.
Qed.

Lemma shl_pack g gs rep : groups_ok (g :: gs) -> (length (g :: gs) <= 6)%nat ->
  Z.lor (to_u 32 (Z.shiftl (pack gs rep) grp_bits)) g = pack (g :: gs) rep.
Proof.
  intros Hok Hl. inversion Hok; subst. pose proof (pack_bound gs rep H2). pose proof (pack_ge gs rep H2) as [Hp _].
  assert (Hpw : 32 ^ Z.of_nat (length gs) <= 32 ^ 5) by (apply Z.pow_le_mono_r; cbn [length] in Hl; lia).
  change (32 ^ 5) with 33554432 in Hpw. unfold grp_bits.
  rewrite Z.shiftl_mul_pow2 by lia. rewrite to_u_id by (change (2 ^ 5) with 32; change (2 ^ 32) with 4294967296; lia).
  rewrite lor_mul by (change (2 ^ 5) with 32; lia). cbn [pack]. change (2 ^ 5) with 32. lia.
Qed.

(* the variadic constructor *)
Lemma ctor2_repeat gs : groups_ok gs -> gs <> [] -> (length gs <= 6)%nat -> ctor2 gs = Some (pack gs true).
Proof.
  induction 1 as [|g gs Hg H IH]; intros Hn Hl; [congruence|]. destruct gs as [|r gs].
  - cbn [ctor2]. replace (g =? -1) with false by lia.
    replace ((0 <? g) && (g <=? grp_max)) with true by (unfold grp_max; lia).
    rewrite <- (shl_pack g [] true); [reflexivity|constructor; auto; constructor|cbn; lia].
  - specialize (IH ltac:(discriminate) ltac:(cbn in *; lia)). cbn [ctor2] in IH |- *. rewrite IH.
    replace ((0 <? g) && (g <=? grp_max)) with true by (unfold grp_max; lia). cbn [obind].
    rewrite Z.lor_comm. rewrite shl_pack; [reflexivity|constructor; assumption|exact Hl].
Qed.
Lemma ctor2_norepeat gs : groups_ok gs -> (length gs <= 6)%nat -> ctor2 (gs ++ [-1]) = Some (pack gs false).
Proof.
  induction 1 as [|g gs Hg H IH]; intros Hl; [reflexivity|].
  specialize (IH ltac:(cbn in *; lia)). cbn [app].
  assert (E : ctor2 (g :: gs ++ [-1]) = if (0 <? g) && (g <=? grp_max)
      then do r <- ctor2 (gs ++ [-1]) ; Some (Z.lor g (to_u 32 (Z.shiftl r grp_bits))) else None).
  { destruct gs; reflexivity. }
  rewrite E, IH. replace ((0 <? g) && (g <=? grp_max)) with true by (unfold grp_max; lia). cbn [obind].
  rewrite Z.lor_comm. rewrite shl_pack; [reflexivity|constructor; assumption|exact Hl].
Qed.
Lemma last_pos gs : groups_ok gs -> gs <> [] -> last gs 0 <> -1.
Proof.
  induction 1 as [|g gs Hg H IH]; intros Hn; [congruence|]. destruct gs; [cbn; lia|]. apply IH; discriminate.
Qed.
Lemma grouping_of_args_repeat gs : valid_groups gs -> gs <> [] ->
  exists g, grouping_of_args gs = Some g /\ represents g gs true.
Proof.
  intros [Hg Hl] Hn. exists (pack gs true). split.
  - unfold grouping_of_args, groups_count. pose proof (last_pos gs Hg Hn).
    destruct (Z.eqb_spec (last gs 0) (-1)); [lia|].
    replace (zlen gs <=? grps_count_max) with true by (unfold zlen, grps_count_max; lia).
    apply ctor2_repeat; assumption.
  - split; [split; assumption|]. split; [congruence|reflexivity].
Qed.
Lemma grouping_of_args_norepeat gs : valid_groups gs ->
  exists g, grouping_of_args (gs ++ [-1]) = Some g /\ represents g gs false.
Proof.
  intros [Hg Hl]. exists (pack gs false). split.
  - unfold grouping_of_args, groups_count. rewrite last_last. cbn [Z.eqb Pos.eqb].
    rewrite zlen_app. replace (zlen gs + zlen [-1] - 1 <=? grps_count_max) with true
      by (unfold zlen, grps_count_max; cbn [length]; lia).
    apply ctor2_norepeat; assumption.
  - split; [split; assumption|]. split; reflexivity.
Qed.

(* the creator: after pushing gs (lowest group first) *)
Definition pushes (gs : list Z) (c : creator) : creator := fold_left push_high gs c.
Lemma push_failed gs : forall c, cr_failed c = true -> cr_failed (pushes gs c) = true.
Proof.
  induction gs as [|g gs IH]; intros c Hc; [exact Hc|]. cbn [pushes fold_left]. apply IH.
  unfold push_high. rewrite Hc. reflexivity.
Qed.
Lemma enough_rpk hs f : groups_ok hs -> enough_space (mk_creator (rpk hs) f) = (length hs <=? 5)%nat.
Proof.
  intros Hh. unfold enough_space. cbn [cr_rev]. unfold grps_count_max, grp_bits.
  change (Z.shiftl 1 ((6 - 1) * 5)) with (32 ^ 5).
  destruct (Nat.leb_spec (length hs) 5) as [Hl|Hl].
  - pose proof (rpk_bound hs Hh). assert (32 ^ Z.of_nat (length hs) <= 32 ^ 5) by (apply Z.pow_le_mono_r; lia). lia.
  - assert (hs <> []) by (destruct hs; [cbn in Hl; lia|discriminate]).
    pose proof (rpk_pos hs Hh H). assert (32 ^ 5 <= 32 ^ (Z.of_nat (length hs) - 1)) by (apply Z.pow_le_mono_r; lia). lia.
Qed.
Lemma pushes_ok gs : forall hs, groups_ok hs -> (length hs <= 6)%nat ->
  (groups_ok gs /\ (length hs + length gs <= 6)%nat /\ pushes gs (mk_creator (rpk hs) false) = mk_creator (rpk (rev gs ++ hs)) false)
  \/ (~ (groups_ok gs /\ (length hs + length gs <= 6)%nat) /\ cr_failed (pushes gs (mk_creator (rpk hs) false)) = true).
Proof.
  induction gs as [|g gs IH]; intros hs Hh Hl.
  - left. split; [constructor|]. split; [cbn; lia|reflexivity].
  - cbn [pushes fold_left]. fold (pushes gs (push_high (mk_creator (rpk hs) false) g)).
    unfold push_high. cbn [cr_failed cr_rev orb]. rewrite enough_rpk by assumption.
    destruct (Z.ltb_spec g 1) as [H1|H1]; cbn [orb].
    { right. split; [intros [HG _]; inversion HG; lia|apply push_failed; reflexivity]. }
    destruct (Z.ltb_spec grp_max g) as [H2|H2]; cbn [orb]; unfold grp_max in H2.
    { right. split; [intros [HG _]; inversion HG; lia|apply push_failed; reflexivity]. }
    destruct (Nat.leb_spec (length hs) 5) as [H3|H3]; cbn [negb].
    2: { right. split; [intros [_ HG]; cbn [length] in HG; lia|apply push_failed; reflexivity]. }
    rewrite push_rpk by (try assumption; lia).
    destruct (IH (g :: hs)) as [(A & B & C)|(A & B)].
    + constructor; [lia|assumption]. + cbn; lia.
    + left. split; [constructor; [lia|assumption]|]. split; [cbn in *; lia|].
      rewrite C. cbn [rev]. rewrite <- app_assoc. reflexivity.
    + right. split; [|exact B]. intros [HG HL]. apply A. inversion HG; subst. split; [assumption|cbn in *; lia].
Qed.

Lemma unreverse_ok rep : forall hs gs fuel, groups_ok hs -> groups_ok gs -> (length hs + length gs <= 6)%nat ->
  (length hs <= fuel)%nat -> unreverse fuel (rpk hs) (pack gs rep) = Some (pack (rev hs ++ gs) rep).
Proof.
  induction hs as [|h hs IH]; intros gs fuel Hh Hg Hl Hf.
  - destruct fuel; reflexivity.
  - inversion Hh; subst. destruct fuel as [|fuel]; [cbn in Hf; lia|]. cbn [unreverse].
    pose proof (rpk_bound hs H2).
    destruct (Z.eqb_spec (rpk (h :: hs)) 0) as [E|_]; [cbn [rpk] in E; lia|].
    change (Z.shiftr (rpk (h :: hs)) grp_bits) with (rdg_pop_high (rpk (h :: hs))).
    change (Z.land (rpk (h :: hs)) grp_mask) with (rdg_highest (rpk (h :: hs))).
    rewrite pop_rpk, highest_rpk by assumption.
    rewrite shl_pack; [|constructor; assumption|cbn in *; lia].
    rewrite IH; [|assumption|constructor; assumption|cbn in *; lia|cbn in *; lia].
    cbn [rev]. rewrite <- app_assoc. reflexivity.
Qed.

(* hs without the leading elements equal to h *)
Fixpoint drop_eq (h : Z) (hs : list Z) : list Z :=
  match hs with [] => [] | x :: t => if x =? h then drop_eq h t else hs end.
Lemma skip_equal_ok h : forall hs fuel, groups_ok hs -> (length hs <= fuel)%nat ->
  skip_equal fuel (rpk hs) h = Some (rpk (drop_eq h hs)).
Proof.
  induction hs as [|x hs IH]; intros fuel Hh Hf; [destruct fuel; reflexivity|].
  inversion Hh; subst. destruct fuel as [|fuel]; [cbn in Hf; lia|]. cbn [skip_equal drop_eq].
  pose proof (rpk_bound hs H2).
  destruct (Z.eqb_spec (rpk (x :: hs)) 0) as [E|_]; [cbn [rpk] in E; lia|].
  change (Z.shiftr (rpk (x :: hs)) grp_bits) with (rdg_pop_high (rpk (x :: hs))).
  change (Z.land (rpk (x :: hs)) grp_mask) with (rdg_highest (rpk (x :: hs))).
  rewrite pop_rpk, highest_rpk by assumption.
  destruct (x =? h); [apply IH; [assumption|cbn in Hf; lia]|reflexivity].
Qed.
Lemma drop_eq_ok h hs : groups_ok hs -> groups_ok (drop_eq h hs) /\ (length (drop_eq h hs) <= length hs)%nat /\
  exists k, hs = repeat h k ++ drop_eq h hs.
Proof.
  induction 1 as [|x hs Hx H IH]; cbn [drop_eq].
  - split; [constructor|]. split; [lia|]. exists 0%nat; reflexivity.
  - destruct IH as (A & B & k & E). destruct (Z.eqb_spec x h) as [->|].
    + split; [assumption|]. split; [cbn; lia|]. exists (S k). cbn. f_equal. exact E.
    + split; [constructor; assumption|]. split; [lia|]. exists 0%nat; reflexivity.
Qed.

(* repeating the last group k more times changes nothing *)
Lemma boundary_repeat_last gs h k i : 1 <= h -> 0 < i ->
  boundary (gs ++ repeat h (S k)) true i = boundary (gs ++ [h]) true i.
Proof.
  intros Hh. revert i. induction gs as [|g gs IH]; intros i Hi.
  - cbn [app]. revert i Hi. induction k as [|k IHk]; intros i Hi; [reflexivity|].
    change (repeat h (S (S k))) with (h :: repeat h (S k)). rewrite boundary_cons by discriminate.
    rewrite <- (boundary_norm h [] true) by lia. cbn [after]. rewrite boundary_cons by discriminate.
    destruct (Z.eqb_spec i h); [reflexivity|]. cbn [orb]. destruct (Z.ltb_spec h i); [|reflexivity].
    cbn [andb]. apply IHk. lia.
  - cbn [app]. rewrite !boundary_cons by (destruct gs; discriminate).
    destruct (Z.eqb_spec i g); [reflexivity|]. cbn [orb]. destruct (Z.ltb_spec g i); [|reflexivity].
    cbn [andb]. apply IH. lia.
Qed.

Lemma rev_repeat {A} (x : A) n : rev (repeat x n) = repeat x n.
Proof. induction n; [reflexivity|]. cbn [repeat rev]. rewrite IHn. symmetry. exact (repeat_snoc x n). Qed.

Lemma creator_init_rpk : creator_init = mk_creator (rpk []) false.
Proof. reflexivity. Qed.

Lemma finish_no_more_ok gs :
  (valid_groups gs -> exists g, finish_no_more_sep (pushes gs creator_init) = Some g /\ represents g gs false) /\
  (~ valid_groups gs -> finish_no_more_sep (pushes gs creator_init) = Some grouping_empty).
Proof.
  rewrite creator_init_rpk. destruct (pushes_ok gs [] ltac:(constructor) ltac:(cbn; lia)) as [(A & B & C)|(A & B)].
  - split; [|intros HN; elim HN; split; assumption]. intros HV. rewrite C, app_nil_r.
    assert (Hr : groups_ok (rev gs)) by (apply Forall_rev; assumption).
    unfold finish_no_more_sep. cbn [cr_failed cr_rev orb].
    change (rpk (rev gs) =? 0) with (rdg_empty (rpk (rev gs))). rewrite empty_rpk by assumption.
    destruct gs as [|g gs].
    + exists grouping_empty. split; [reflexivity|]. split; [assumption|]. split; reflexivity.
    + destruct (rev (g :: gs)) as [|y l] eqn:E.
      { apply (f_equal (@length Z)) in E. rewrite rev_length in E. discriminate. }
      rewrite <- E. exists (pack (g :: gs) false). split.
      * change dont_repeat_last with (pack [] false).
        rewrite unreverse_ok; [|rewrite E; assumption|constructor|rewrite rev_length; cbn in *; lia|rewrite rev_length; cbn in *; lia].
        rewrite rev_involutive, app_nil_r. reflexivity.
      * split; [assumption|]. split; [discriminate|reflexivity].
  - split; [intros [HG HL]; elim A; split; [exact HG|cbn; exact HL]|].
    intros _. unfold finish_no_more_sep. rewrite B. reflexivity.
Qed.

Lemma finish_ok gs :
  (valid_groups gs -> gs <> [] -> exists g gs', finish (pushes gs creator_init) = Some g /\ represents g gs' true /\
      forall i, 0 < i -> boundary gs' true i = boundary gs true i) /\
  (~ valid_groups gs \/ gs = [] -> finish (pushes gs creator_init) = Some grouping_empty).
Proof.
  rewrite creator_init_rpk. destruct (pushes_ok gs [] ltac:(constructor) ltac:(cbn; lia)) as [(A & B & C)|(A & B)].
  - split; [|intros [HN| ->]; [elim HN; split; assumption|reflexivity]]. intros HV Hne. rewrite C, app_nil_r.
    assert (Hr : groups_ok (rev gs)) by (apply Forall_rev; assumption).
    unfold finish. cbn [cr_failed cr_rev orb].
    change (rpk (rev gs) =? 0) with (rdg_empty (rpk (rev gs))). rewrite empty_rpk by assumption.
    destruct (rev gs) as [|h l] eqn:E.
    { apply (f_equal (@rev Z)) in E. rewrite rev_involutive in E. cbn in E. congruence. }
    assert (Eg : gs = rev l ++ [h]) by (rewrite <- (rev_involutive gs), E; reflexivity).
    pose proof (Forall_inv Hr) as H1. pose proof (Forall_inv_tail Hr) as H2. cbn beta in H1.
    assert (Hll : (length (h :: l) <= 6)%nat) by (rewrite <- E, rev_length; cbn in B; lia).
    change (Z.land (rpk (h :: l)) grp_mask) with (rdg_highest (rpk (h :: l))).
    change (Z.shiftr (rpk (h :: l)) grp_bits) with (rdg_pop_high (rpk (h :: l))).
    rewrite pop_rpk, highest_rpk by assumption.
    rewrite skip_equal_ok by (try assumption; cbn in Hll; lia). cbn [obind].
    destruct (drop_eq_ok h l H2) as (D1 & D2 & k & D3).
    change repeat_last with (pack [] true). rewrite shl_pack; [|constructor; [assumption|constructor]|cbn; lia].
    rewrite unreverse_ok; [|assumption|constructor; [assumption|constructor]|cbn in *; lia|cbn in *; lia].
    exists (pack (rev (drop_eq h l) ++ [h]) true), (rev (drop_eq h l) ++ [h]). split; [reflexivity|]. split.
    + split; [split|split; [|reflexivity]].
      * apply Forall_app; split; [apply Forall_rev; assumption|constructor; [assumption|constructor]].
      * rewrite app_length, rev_length. cbn in *; lia.
      * destruct (rev (drop_eq h l)); discriminate.
    + intros i Hi. rewrite Eg. rewrite D3 at 2. rewrite rev_app_distr, rev_repeat, <- app_assoc.
      rewrite <- (repeat_snoc h k). symmetry. apply boundary_repeat_last; lia.
  - split; [intros [HG HL]; elim A; split; [exact HG|cbn; exact HL]|].
    intros _. unfold finish. rewrite B. reflexivity.
Qed.

(* digits_grouping(const char ptr) *)
Lemma of_str_repeat gs : Forall (fun c => 1 <= c < 128) gs -> forall c,
  of_str_loop gs c = finish (pushes gs c).
Proof.
  induction 1 as [|x gs Hx H IH]; intros c; [reflexivity|]. cbn [of_str_loop].
  replace (x =? 0) with false by lia.
  assert (Hl : Z.land x 0x80 = 0).
  { apply Z.eqb_eq. assert (Hs := sweep (fun x => (128 <=? x) || (Z.land x 0x80 =? 0)) 256 eq_refl x ltac:(cbn; lia)).
    cbn beta in Hs; lia. }
  rewrite Hl. cbn [Z.eqb negb]. apply IH.
Qed.
Lemma of_str_norepeat gs : Forall (fun c => 1 <= c < 128) gs -> forall c m rest, 128 <= m < 256 ->
  of_str_loop (gs ++ m :: rest) c = finish_no_more_sep (pushes gs c).
Proof.
  intros H. assert (Hl : forall x, 0 <= x < 256 -> (Z.land x 0x80 =? 0) = (x <? 128)).
  { intros x Hx. apply eqb_prop. exact (sweep (fun x => eqb (Z.land x 0x80 =? 0) (x <? 128)) 256 eq_refl x ltac:(cbn; lia)). }
  induction H as [|x gs Hx H IH]; intros c m rest Hm; cbn [app of_str_loop].
  - replace (m =? 0) with false by lia. rewrite Hl by lia. replace (m <? 128) with false by lia. reflexivity.
  - replace (x =? 0) with false by lia. rewrite Hl by lia. replace (x <? 128) with true by lia. cbn [negb]. apply IH. exact Hm.
Qed.
