(* Proofs about StringModel: joins. *)
From Verif Require Import Base WidthModel WidthProofs DestModel DestProofs CharsetModel CsetModel
  IntSpec IntModel IntProofs PrintModel ToModel StringModel PrintSpec PrintProofs StringProofs CharProofs.

Lemma join_arg_ok M args ds : Forall2 (arg_ok M) args ds -> arg_ok M (join_arg args) (join_desc ds).
Proof.
  intros H. pose proof (args_nonneg _ _ _ H) as HN. destruct (join_nonneg ds HN) as [A B]. split; [exact A|]. split; [exact B|].
  intros p HP. destruct (make_printers_ok M args ds H p HP) as (p' & ps & E & HT & HA). unfold join_arg. rewrite E. cbn [obind fst snd].
  eexists _, _. split; [reflexivity|]. split; [|exact HA]. unfold join_desc. cbn [d_text]. apply call_printers_ok, HT.
Qed.

(* the bounds under which measuring an aligned join does not overflow: [aw] is its width,
   M bounds the width limit (None: width not measured) *)
Definition join_room (M : option Z) (aw : Z) (ds : list desc) : Prop :=
  let d := join_desc ds in
  match M with
  | None => d_peak d <= u_max \/ aw + d_need d <= u_max
  | Some M => let over := Z.max 0 (M - aw) in
      (d_peak d + over <= u_max \/ Z.max aw M + d_need d + over <= u_max) /\
      Z.max aw M + 65536 * missing aw (d_width d) <= u_max
  end.
(* the largest limit for which its arguments are measured *)
Definition join_limit (M : option Z) (aw : Z) : option Z := match M with None => Some aw | Some M => Some (Z.max aw M) end.
Definition aligned_join_desc (b : cset) (al : align_fmt) (ds : list desc) : desc :=
  let d := join_desc ds in
  let m := missing (al_width al) (d_width d) in
  mk_desc (padded (al_align al) (cs_encode (charset_of b) (al_fill al)) m (d_text d))
    (d_width d + 65536 * m) (Z.max (d_width d + 65536 * m) (al_width al)) (al_width al + 65536).

Lemma p_aligned_join_ok b al m ps t : is_cset b -> 0 <= al_fill al < 2 ^ 32 -> prints_text (call_printers ps) t ->
  prints_text (p_aligned_join (charset_of b) al m ps) (padded (al_align al) (cs_encode (charset_of b) (al_fill al)) m t).
Proof.
  intros HB HF HP. pose proof (charset_of_ok b HB) as KB. unfold p_aligned_join.
  assert (forall n, 0 <= n -> prints_text (p_op (cs_fill (charset_of b) n (al_fill al))) (fill_text (cs_encode (charset_of b) (al_fill al)) n)) as PF by (intros; apply prints_fill_op; assumption).
  unfold padded. destruct (Z.leb_spec m 0).
  - rewrite !fill_text_nil; [rewrite app_nil_r; exact HP| |]; unfold right_fill; destruct (al_align al); cbn [left_fill]; try lia.
    all: Z.to_euclidean_division_equations; lia.
  - destruct (al_align al); unfold right_fill; cbn [left_fill].
    + rewrite (fill_text_nil _ 0) by lia. rewrite Z.sub_0_r. cbn [app]. apply prints_seq; auto with zarith.
    + rewrite Z.sub_diag, (fill_text_nil _ 0) by lia. rewrite app_nil_r. apply prints_seq; auto with zarith.
    + cbv zeta. rewrite Z.shiftr_div_pow2 by lia. change (2 ^ 1) with 2. assert (0 <= m / 2 <= m) by (Z.to_euclidean_division_equations; lia). apply prints_seq; [apply PF; lia|]. apply prints_seq; [exact HP|apply PF; lia].
Qed.

Lemma join_add_size_ok b al m sub p t : is_cset b -> 0 <= al_fill al < 2 ^ 32 -> 0 <= m ->
  (match p_size p with None => True | Some n => 0 <= n < 2 ^ 64 end) ->
  zlen (padded (al_align al) (cs_encode (charset_of b) (al_fill al)) m t) < ssize_max ->
  p_size sub = match p_size p with None => None | Some _ => Some (zlen t mod 2 ^ 64) end ->
  exists p', join_add_size (charset_of b) al m sub p = Some p' /\ p_width p' = p_width p /\
    p_size p' = option_map (fun n => (n + zlen (padded (al_align al) (cs_encode (charset_of b) (al_fill al)) m t)) mod 2 ^ 64) (p_size p).
Proof.
  intros HB HF Hm HZ HT HS. destruct (padded_size b al m t HB HF Hm) as [EL ES]. rewrite EL in *. pose proof (zlen_nonneg t) as Ht0.
  unfold join_add_size. destruct (p_size p) as [z|] eqn:EZ.
  - assert (0 <= m * cs_size (charset_of b) (al_fill al)) as Hp by nia. set (q := m * cs_size (charset_of b) (al_fill al)) in *.
    unfold ssize_max in HT. assert (accumulated_ssize sub = zlen t) as ->.
    { unfold accumulated_ssize. rewrite HS. change (2 ^ 64) with 18446744073709551616 in *. change (2 ^ 63) with 9223372036854775808 in *. rewrite Z.mod_small by lia.
      unfold to_i, to_u. change (2 ^ 64) with 18446744073709551616. change (2 ^ (64 - 1)) with 9223372036854775808. rewrite Z.mod_small by lia. destruct (Z.ltb_spec (zlen t) 9223372036854775808); lia. }
    destruct (add_size_ok (zlen t) p Ht0) as (p1 & E1 & Z1 & W1 & R1); [rewrite EZ; exact HZ|]. rewrite EZ in Z1. cbn [option_map] in *. rewrite E1. cbn [obind].
    destruct (Z.ltb_spec 0 m).
    + destruct (add_size_ok q p1 Hp R1) as (p2 & E2 & Z2 & W2 & _). exists p2. split; [exact E2|]. split; [congruence|]. rewrite Z2, Z1. cbn [option_map]. f_equal. rewrite Zplus_mod_idemp_l. f_equal. lia.
    + exists p1. split; [reflexivity|]. split; [exact W1|]. rewrite Z1. assert (q = 0) as -> by (unfold q; replace m with 0 by lia; lia). rewrite Z.add_0_r. reflexivity.
  - exists p. auto.
Qed.

Lemma w_round_0 : w_round 0 = 0. Proof. reflexivity. Qed.
Lemma aligned_join_ok M b al args ds : is_cset b -> align_ok al -> 0 <= al_width al ->
  Forall2 (arg_ok (join_limit M (al_width al))) args ds -> join_room M (al_width al) ds ->
  zlen (d_text (aligned_join_desc b al ds)) < ssize_max ->
  arg_ok M (aligned_join_arg b al args) (aligned_join_desc b al ds).
Proof.
  intros HB [HF HL] Haw HA HR HT. pose proof (args_nonneg _ _ _ HA) as HN. destruct (join_nonneg ds HN) as [N1 N2].
  unfold aligned_join_desc in *. cbv zeta in *. set (d := join_desc ds) in *. set (aw := al_width al) in *. set (m := missing aw (d_width d)) in *.
  pose proof (missing_bounds aw (d_width d)) as HM. fold m in HM. cbn [d_text] in HT.
  split; [cbn [d_width d_peak]; lia|]. split; [cbn [d_need]; lia|]. intros p [HZ HW]. cbn [d_text].
  assert (forall q, p_size q = sub_size p -> match p_size q with None => True | Some n => 0 <= n < 2 ^ 64 end) as HSub.
  { intros q ->. unfold sub_size. destruct (p_size p); [lia|exact I]. }
  assert (forall q, p_size q = option_map (fun n => (n + zlen (d_text d)) mod 2 ^ 64) (sub_size p) -> p_size q = match p_size p with None => None | Some _ => Some (zlen (d_text d) mod 2 ^ 64) end) as HSub2.
  { intros q ->. unfold sub_size. destruct (p_size p); reflexivity. }
  unfold aligned_join_arg. cbv zeta. fold aw. unfold is_width in HL. destruct (p_width p) as [[limit x]|] eqn:EW.
  - destruct M as [M|]; [|destruct HW as (_ & [] & _)]. destruct HW as (L1 & L2 & Hx & HRoom). cbn [within] in L2. unfold is_width in L1.
    cbn [join_room join_limit] in *. fold d in HR. destruct HR as [HR1 HR2]. fold m in HR2.
    assert (x + aw <= u_max /\ x + (d_width d + 65536 * m) <= u_max \/ Z.max limit x + aw + 65536 <= u_max) as HR3 by (unfold room in HRoom; cbn [d_peak d_need] in HRoom; lia).
    unfold remaining_width_greater_than at 1. rewrite EW. rewrite w_add_ok by (unfold u_min; lia). cbn [obind].
    set (K := if x + aw <? limit then limit - x else aw).
    assert ((if x + aw <? limit then remaining_width p else Some aw) = Some K) as ->.
    { unfold K, remaining_width. rewrite EW. destruct (Z.ltb_spec (x + aw) limit); [|reflexivity]. destruct (Z.leb_spec x limit); [|lia]. apply w_sub_ok. unfold u_min, u_max in *. lia. }
    cbn [obind]. assert (aw <= K /\ K <= Z.max aw M /\ limit <= x + K /\ x + K <= Z.max limit (x + aw)) as (K1 & K2 & K3 & K4) by (unfold K; destruct (Z.ltb_spec (x + aw) limit); lia).
    assert ((if x + aw <? limit then w_sub K aw else Some 0) = Some (K - aw)) as ->.
    { unfold K. destruct (Z.ltb_spec (x + aw) limit); [|f_equal; lia]. apply w_sub_ok. unfold u_min, u_max in *. lia. }
    cbn [obind].
    destruct (make_printers_ok (Some (Z.max aw M)) args ds HA (mk_pre (sub_size p) (Some (K, 0)))) as (q & ps & E & HPs & A1 & A2).
    { split; [apply HSub; reflexivity|]. cbn [p_width within]. split; [unfold is_width, u_min, u_max in *; lia|]. split; [exact K2|]. split; [unfold u_max; lia|]. unfold room. fold d. lia. }
    rewrite E. cbn [obind fst snd]. cbn [p_width p_size] in A1, A2. fold d in A1, A2. destruct (p_width q) as [[K' y]|] eqn:EQ; [|destruct A2]. destruct A2 as (-> & Y1 & Y2 & Y3).
    unfold remaining_width_greater_than at 1. rewrite EQ. rewrite w_add_ok by (unfold u_min; lia). cbn [obind].
    assert (remaining_width q = Some (Z.max 0 (K - y))) as ->.
    { unfold remaining_width. rewrite EQ. destruct (Z.leb_spec y K); [rewrite w_sub_ok by (unfold u_min, u_max in *; lia)|]; f_equal; lia. }
    cbn [obind].
    assert ((if y + (K - aw) <? K then do d0 <- w_sub (Z.max 0 (K - y)) (K - aw) ; Some (w_round d0) else Some 0) = Some m) as ->.
    { destruct (Z.ltb_spec (y + (K - aw)) K).
      - assert (y = d_width d) as -> by lia. rewrite w_sub_ok by (unfold u_min, u_max in *; lia). cbn [obind]. f_equal.
        replace (Z.max 0 (K - d_width d) - (K - aw)) with (aw - d_width d) by lia. apply missing_ok; unfold is_width; lia.
      - f_equal. symmetry. apply missing_none. lia. }
    cbn [obind]. rewrite sat_add_i32_ok by (unfold is_width, u_min, u_max in *; lia). cbn [obind].
    assert (WidthProofs.clamp (K + scaled m) = K + 65536 * m) as -> by (unfold WidthProofs.clamp, scaled, u_min, u_max in *; lia).
    rewrite sat_sub_ok by (unfold is_width, u_min, u_max in *; lia). cbn [obind].
    assert (WidthProofs.clamp (K + 65536 * m - Z.max 0 (K - y)) = Z.min K y + 65536 * m) as -> by (unfold WidthProofs.clamp, u_min, u_max in *; lia).
    assert (m = 0 \/ y = d_width d /\ y < aw + 32767 /\ y + 65536 * m <= aw + 32767) as HMm.
    { destruct (Z.le_gt_cases aw y). - left. apply missing_none. lia. - right. assert (y = d_width d) by lia. lia. }
    destruct (add_width_ok (Z.min K y + 65536 * m) p) as (p1 & E1 & Z1 & W1); [rewrite EW; unfold u_min in *; lia|]. rewrite E1. cbn [obind].
    destruct (join_add_size_ok b al m q p1 (d_text d) HB HF ltac:(lia)) as (p2 & E2 & W2 & Z2); [rewrite Z1; exact HZ|exact HT|rewrite Z1; apply HSub2, A1|].
    rewrite E2. cbn [obind]. eexists _, _. split; [reflexivity|]. split; [apply p_aligned_join_ok; [exact HB|exact HF|apply call_printers_ok, HPs]|].
    split; [rewrite Z2, Z1; reflexivity|]. rewrite EW, W2, W1, EW. cbn [d_width d_need]. split; [reflexivity|]. lia.
  - assert (join_limit M aw = Some (match M with None => aw | Some M => Z.max aw M end)) as EM by (destruct M; reflexivity). rewrite EM in HA.
    assert (d_peak d <= u_max \/ aw + d_need d <= u_max) as HR' by (destruct M; cbn [join_room] in HR; fold d in HR; lia).
    destruct (make_printers_ok _ args ds HA (mk_pre (sub_size p) (Some (aw, 0)))) as (q & ps & E & HPs & A1 & A2).
    { split; [apply HSub; reflexivity|]. cbn [p_width within]. split; [exact HL|]. split; [destruct M; lia|]. split; [unfold u_max; lia|]. unfold room. fold d. lia. }
    rewrite E. cbn [obind fst snd]. cbn [p_width p_size] in A1, A2. fold d in A1, A2. destruct (p_width q) as [[K' y]|] eqn:EQ; [|destruct A2]. destruct A2 as (-> & Y1 & Y2 & Y3).
    assert (remaining_width q = Some (Z.max 0 (aw - y))) as ->.
    { unfold remaining_width. rewrite EQ. destruct (Z.leb_spec y aw); [rewrite w_sub_ok by (unfold u_min, u_max in *; lia)|]; f_equal; lia. }
    cbn [obind].
    assert (w_round (Z.max 0 (aw - y)) = m) as ->.
    { destruct (Z.le_gt_cases aw y).
      - replace (Z.max 0 (aw - y)) with 0 by lia. symmetry. apply missing_none. lia.
      - assert (y = d_width d) as -> by lia. replace (Z.max 0 (aw - d_width d)) with (aw - d_width d) by lia. apply missing_ok; unfold is_width; lia. }
    destruct (join_add_size_ok b al m q p (d_text d) HB HF ltac:(lia)) as (p2 & E2 & W2 & Z2); [exact HZ|exact HT|apply HSub2, A1|].
    rewrite E2. cbn [obind]. eexists _, _. split; [reflexivity|]. split; [apply p_aligned_join_ok; [exact HB|exact HF|apply call_printers_ok, HPs]|].
    split; [exact Z2|]. rewrite EW, W2, EW. exact I.
Qed.

(* printed directly, with any width *)
Lemma aligned_join_direct b al args ds : is_cset b -> align_ok al ->
  Forall2 (arg_ok (Some (al_width al))) args ds ->
  d_peak (join_desc ds) <= u_max \/ Z.max (al_width al) 0 + d_need (join_desc ds) <= u_max ->
  exists pr, aligned_join_arg b al args no_pre = Some (no_pre, pr) /\ prints_text pr (d_text (aligned_join_desc b al ds)).
Proof.
  intros HB [HF HL] HA HR. pose proof (args_nonneg _ _ _ HA) as HN. destruct (join_nonneg ds HN) as [N1 N2].
  unfold aligned_join_desc in *. cbv zeta in *. set (d := join_desc ds) in *. set (aw := al_width al) in *. set (m := missing aw (d_width d)) in *.
  unfold aligned_join_arg. cbv zeta. fold aw. unfold is_width in HL. change (p_width no_pre) with (@None (Z * Z)). cbv iota.
  destruct (make_printers_ok _ args ds HA (mk_pre (sub_size no_pre) (Some (aw, 0)))) as (q & ps & E & HPs & A1 & A2).
  { split; [exact I|]. cbn [p_width within]. split; [exact HL|]. split; [lia|]. split; [unfold u_max; lia|]. unfold room. fold d. lia. }
  rewrite E. cbn [obind fst snd]. cbn [p_width p_size] in A2. fold d in A2. destruct (p_width q) as [[K' y]|] eqn:EQ; [|destruct A2]. destruct A2 as (-> & Y1 & Y2 & Y3).
  assert (remaining_width q = Some (Z.max 0 (aw - y))) as ->.
  { unfold remaining_width. rewrite EQ. destruct (Z.leb_spec y aw); [rewrite w_sub_ok by (unfold u_min, u_max in *; lia)|]; f_equal; lia. }
  cbn [obind].
  assert (w_round (Z.max 0 (aw - y)) = m) as ->.
  { destruct (Z.le_gt_cases aw y).
    - replace (Z.max 0 (aw - y)) with 0 by lia. symmetry. apply missing_none. lia.
    - assert (y = d_width d) as -> by lia. replace (Z.max 0 (aw - d_width d)) with (aw - d_width d) by lia. apply missing_ok; unfold is_width; lia. }
  unfold join_add_size. change (p_size no_pre) with (@None Z). cbn [obind].
  eexists. split; [reflexivity|]. cbn [d_text]. apply p_aligned_join_ok; [exact HB|exact HF|apply call_printers_ok, HPs].
Qed.
